{"id": "C01", "title": "Base58 decode inverts encode", "statement": "base58.decode(base58.encode(d, A), A) returns d, byte for byte, including every leading zero byte, for every byte string d and every alphabet A of at least two distinct ASCII characters (in particular the Bitcoin and Ripple alphabets).", "quantifier": "all byte strings of any length; all alphabets with >=2 distinct ASCII characters", "why_tests_cant": "infinitely many inputs; leading zeros and carry boundaries are the hard cases", "anchors": ["bip38/libs/base58.py:encode", "bip38/libs/base58.py:decode"]}
{"id": "C02", "title": "Base58 encode inverts decode on well-formed strings", "statement": "For every string s all of whose characters belong to the alphabet A, base58.decode(s, A) succeeds and base58.encode of the result is s again; so no two different well-formed strings decode to the same bytes, and encode only ever emits characters of A.", "quantifier": "all strings over the alphabet, all such alphabets", "why_tests_cant": "an injectivity claim over an infinite set cannot be sampled", "anchors": ["bip38/libs/base58.py:encode", "bip38/libs/base58.py:decode"]}
{"id": "C03", "title": "Base58Check acceptance is exact", "statement": "check_decode(check_encode(d)) = d for every d; and check_decode(s) returns d only if base58.decode(s) is d followed by the first four bytes of SHA256(SHA256(d)); every other ASCII string raises ValueError. For strings over the alphabet, check_decode(s)=d if and only if s = check_encode(d).", "quantifier": "all byte strings d, all strings s", "why_tests_cant": "soundness of acceptance is a statement about every string", "anchors": ["bip38/libs/base58.py:check_encode", "bip38/libs/base58.py:check_decode"]}
{"id": "C04", "title": "Base58 decode and characters outside the alphabet", "statement": "A user expects a Base58 string containing a character outside the alphabet (0, O, I, l, punctuation) to be rejected. The code never rejects an ASCII string: such a character is read as the digit -1, so e.g. replacing two trailing characters 'x_i 0' by 'x_{i-1} z' leaves the decoded bytes unchanged; hence different strings are accepted as the same key. Only a non-ASCII character is rejected (UnicodeEncodeError).", "quantifier": "all strings", "why_tests_cant": "the collision exists for every prefix string; a test sees one", "anchors": ["bip38/libs/base58.py:decode"]}
{"id": "C05", "title": "Integer/bytes conversion", "statement": "bytes_to_integer(integer_to_bytes(n)) = n for every n >= 0 with or without a sufficient width, in both byte orders; with a width w the result has exactly w bytes and OverflowError is raised iff n does not fit; without a width the result is the shortest big-endian string (one zero byte for 0), so integer_to_bytes(bytes_to_integer(b)) equals b with its leading zero bytes removed, and equals b iff b does not start with a zero byte (or is the single zero byte).", "quantifier": "all integers, all byte strings, both byte orders", "why_tests_cant": "unbounded integers", "anchors": ["bip38/utils.py:integer_to_bytes", "bip38/utils.py:bytes_to_integer"]}
{"id": "C06", "title": "Hex conversion", "statement": "get_bytes(bytes_to_string(b)) = b for every byte string b; bytes_to_string of a non-empty byte string is its lowercase two-digit hex; bytes_to_string leaves a hex string unchanged; get_bytes of a str that is not pairs of hex digits (separated by ASCII whitespace) raises ValueError. get_bytes returns bytes unchanged, gives b'' for None, 0 and the empty string or bytes, with unhexlify=False gives the UTF-8 bytes of a text (UnicodeEncodeError if it has none), and raises TypeError for any other true object.", "quantifier": "all byte strings and strings", "why_tests_cant": "infinite domain", "anchors": ["bip38/utils.py:get_bytes", "bip38/utils.py:bytes_to_string"]}
{"id": "C07", "title": "WIF round trip", "statement": "For every 32-byte private key, every supported coin and network and both WIF types, private_key_to_wif returns a string from which wif_to_private_key, get_wif_type and get_wif_checksum recover exactly the key, the type and the four checksum bytes; distinct (key, type) pairs give distinct WIFs.", "quantifier": "all 2^256 keys, all coins/networks in the table (and every prefix >= 0), both types", "why_tests_cant": "2^256 keys times every prefix", "anchors": ["bip38/wif.py:encode_wif", "bip38/wif.py:decode_wif", "bip38/wif.py:private_key_to_wif", "bip38/wif.py:wif_to_private_key", "bip38/wif.py:get_wif_type", "bip38/wif.py:get_wif_checksum"]}
{"id": "C08", "title": "WIF encoding rejects bad arguments", "statement": "encode_wif/private_key_to_wif raise Secp256k1Error for every key whose byte length is not 32, and private_key_to_wif raises WIFError for every wif_type other than 'wif' and 'wif-compressed'; they never return a string in these cases, and the message states the rejected value or length exactly.", "quantifier": "all byte strings and all type strings", "why_tests_cant": "negative claim over all inputs", "anchors": ["bip38/wif.py:encode_wif", "bip38/wif.py:private_key_to_wif"]}
{"id": "C09", "title": "WIF decoding acceptance is exact", "statement": "decode_wif(s, prefix) returns (k, t, c) exactly when the Base58 decoding of s is prefix-bytes || k || [one arbitrary byte if t is 'wif-compressed'] || c with 32-byte k and 4-byte c; otherwise it raises WIFError (or UnicodeEncodeError for non-ASCII s). In particular a WIF made for a prefix of the same byte length but different value is always rejected with WIFError.", "quantifier": "all strings, all prefixes", "why_tests_cant": "exact acceptance set over all strings", "anchors": ["bip38/wif.py:decode_wif"]}
{"id": "C10", "title": "WIF checksum is not verified", "statement": "A user expects a mistyped WIF to be rejected by its checksum. decode_wif (hence wif_to_private_key and BIP38.encrypt) never compares the checksum: for every key and every four checksum bytes the string is accepted and yields that key; also the compression marker byte may be anything, not only 0x01.", "quantifier": "all keys, all checksum values, all marker bytes", "why_tests_cant": "shows a missing check for every input", "anchors": ["bip38/wif.py:decode_wif", "bip38/bip38.py:BIP38.encrypt"]}
{"id": "C11", "title": "P2PKH address round trip and rejection", "statement": "P2PKHAddress.decode(P2PKHAddress.encode(K, address_prefix, public_key_type, alphabet), address_prefix, alphabet) returns the hex of RIPEMD160(SHA256(serialised K)) for every public key, prefix >= 0 and alphabet; decode returns only if the Base58Check payload is the prefix followed by exactly 20 bytes, otherwise it raises AddressError (payload wrong: 'Invalid length' with expected and actual length, or 'Invalid prefix' with expected and actual bytes, in that order) or ValueError (checksum wrong).", "quantifier": "all public keys, prefixes, alphabets, strings", "why_tests_cant": "all keys and all malformed strings", "anchors": ["bip38/p2pkh_address.py:P2PKHAddress.encode", "bip38/p2pkh_address.py:P2PKHAddress.decode"]}
{"id": "C12", "title": "Passphrase encryption round trip (no EC multiply)", "statement": "If encrypt(wif, passphrase) returns e, where wif is the WIF of a 32-byte key k of the instance's coin and network, then decrypt(e, passphrase) returns that same wif (and with detail=True its key, type, public key, public-key type, address, and None for seed/lot/sequence) whenever the first byte of k is not zero; when the first byte of k is zero, that is for the private keys from 1 to 2^248 - 1, decrypt raises Secp256k1Error, so the key cannot be recovered with this library.", "quantifier": "all keys, passphrases, coins, networks, both WIF types, all hash/KDF/cipher outputs", "why_tests_cant": "failure needs a key with a leading zero byte; round trip is over 2^256 keys and all passphrases", "anchors": ["bip38/bip38.py:BIP38.encrypt", "bip38/bip38.py:BIP38.decrypt", "bip38/utils.py:integer_to_bytes"]}
{"id": "C13", "title": "encrypt succeeds exactly when neither masked half starts with a zero byte", "statement": "For a valid key k and a UTF-8 encodable passphrase, with D the first 32 bytes of the scrypt output, encrypt returns a string iff k[0] != D[0] and k[16] != D[16]; otherwise it raises ValueError from the AES layer (the masked half loses its leading zero byte).", "quantifier": "all keys and passphrases", "why_tests_cant": "about one (key, passphrase) pair in 128 fails; testing a fixed vector list misses it", "anchors": ["bip38/bip38.py:BIP38.encrypt", "bip38/utils.py:integer_to_bytes"]}
{"id": "C14", "title": "encrypt output is the BIP38 record", "statement": "Whatever encrypt returns is the Base58 text of 0x0142 || flag (0xC0 uncompressed, 0xE0 compressed) || first 4 bytes of SHA256d(address text) || AES256(k[0:16] xor D1) || AES256(k[16:32] xor D2) || 4-byte double-SHA checksum, with the address of k on the selected network and D/key from scrypt(NFC(passphrase), addresshash, 16384, 8, 8, 64).", "quantifier": "all keys and passphrases", "why_tests_cant": "the layout must hold for every input", "anchors": ["bip38/bip38.py:BIP38.encrypt"]}
{"id": "C15", "title": "Encrypted key and code text shape", "statement": "Every encrypted key returned by encrypt or create_new_encrypted_wif is 58 characters long and starts with '6P'; every confirmation code is 75 characters and starts with 'cfrm38'; every intermediate code for an 8-byte entropy is 72 characters and starts with 'passphrase'.", "quantifier": "all keys, passphrases, seeds, salts", "why_tests_cant": "a magnitude argument over every payload", "anchors": ["bip38/bip38.py:BIP38.encrypt", "bip38/bip38.py:BIP38.create_new_encrypted_wif", "bip38/bip38.py:BIP38.intermediate_code", "bip38/libs/base58.py:encode"]}
{"id": "C16", "title": "decrypt never returns a key that does not match the embedded address hash", "statement": "Whenever decrypt returns a WIF (either mode, any passphrase, any input string), the first 4 bytes of SHA256d of the P2PKH address of the returned key (in the reported compression, on the selected network) equal bytes 3..6 of the decoded input, the returned WIF encodes that key, and the detail record is consistent (private key, public key, address, types all describe the same key). A wrong passphrase therefore either raises or hits a 32-bit collision.", "quantifier": "all strings, passphrases, networks", "why_tests_cant": "soundness over all inputs, including adversarial ones", "anchors": ["bip38/bip38.py:BIP38.decrypt"]}
{"id": "C17", "title": "detail flag does not change the outcome", "statement": "decrypt(..., detail=False) returns exactly the 'wif' field of decrypt(..., detail=True), and raises the same exception in the same cases; likewise confirm_code(..., detail=False) returns exactly the 'address' field.", "quantifier": "all inputs to decrypt and confirm_code", "why_tests_cant": "relational property over all inputs", "anchors": ["bip38/bip38.py:BIP38.decrypt", "bip38/bip38.py:BIP38.confirm_code"]}
{"id": "C18", "title": "decrypt input validation", "statement": "decrypt raises WIFError for every ASCII string that does not Base58-decode to 43 bytes, Error for every 43-byte payload whose first two bytes are neither 0x0142 nor 0x0143, and Error for every 0x0142 payload whose flag byte is neither 0xC0 nor 0xE0, before any passphrase processing; the message quotes the actual length, prefix or flag bytes; non-ASCII input raises UnicodeEncodeError.", "quantifier": "all strings and passphrases", "why_tests_cant": "negative claim over all malformed inputs", "anchors": ["bip38/bip38.py:BIP38.decrypt"]}
{"id": "C19", "title": "decrypt ignores the checksum of the encrypted key", "statement": "A user expects a mistyped encrypted key to be detected by its 4-byte checksum. decrypt never looks at those bytes: for every 39-byte body and any two 4-byte trailers the two Base58 strings give the same result.", "quantifier": "all bodies, trailers, passphrases", "why_tests_cant": "a missing check, for every input", "anchors": ["bip38/bip38.py:BIP38.decrypt"]}
{"id": "C20", "title": "Unicode-equivalent passphrases are interchangeable", "statement": "intermediate_code, encrypt, confirm_code and decrypt depend on the passphrase only through its NFC normalisation: two passphrases with equal NFC forms give identical results in every call.", "quantifier": "all pairs of passphrases, all other arguments", "why_tests_cant": "pairs of strings are unbounded", "anchors": ["bip38/bip38.py:BIP38.intermediate_code", "bip38/bip38.py:BIP38.encrypt", "bip38/bip38.py:BIP38.confirm_code", "bip38/bip38.py:BIP38.decrypt"]}
{"id": "C21", "title": "intermediate_code output", "statement": "With lot in 100000..999999, sequence in 1..4095 and a 4- or 8-byte owner salt, the result is the Base58Check text of 0x2CE9B3E1FF39E251 || salt[0:4] || (lot*4096+sequence as 4 bytes) || compressed passfactor*G with passfactor = SHA256d(scrypt(NFC(passphrase), salt[0:4]) || entropy); without lot and sequence and an 8-byte salt it is that of 0x2CE9B3E1FF39E253 || salt || compressed scrypt(NFC(passphrase), salt)*G. It raises Secp256k1Error iff the factor is 0 or >= N.", "quantifier": "all passphrases, salts, lots, sequences", "why_tests_cant": "all parameter combinations", "anchors": ["bip38/bip38.py:BIP38.intermediate_code"]}
{"id": "C22", "title": "intermediate_code argument validation", "statement": "intermediate_code raises Error (and returns nothing) for every owner salt whose length is not 4 or 8, for a 4-byte salt when lot or sequence is missing, when exactly one of (non-zero) lot and sequence is given, and, when both are non-zero, for every lot outside 100000..999999 or sequence outside 1..4095; the message quotes the offending value.", "quantifier": "all argument combinations", "why_tests_cant": "unbounded integers", "anchors": ["bip38/bip38.py:BIP38.intermediate_code"]}
{"id": "C23", "title": "Sequence number 0 is silently dropped", "statement": "The documented range of sequence is 0-4095. For every valid lot and sequence 0, intermediate_code does not produce a lot/sequence code: with an 8-byte salt it returns exactly the code it returns without lot and sequence; with a 4-byte salt it returns a 45-byte payload that create_new_encrypted_wif always rejects. Likewise lot 0 with any sequence is accepted and ignored instead of being rejected.", "quantifier": "all lots, salts, passphrases", "why_tests_cant": "shows wrong behaviour for the whole class, plus the consequence downstream", "anchors": ["bip38/bip38.py:BIP38.intermediate_code", "bip38/bip38.py:BIP38.create_new_encrypted_wif"]}
{"id": "C24", "title": "EC-multiply round trip", "statement": "If intermediate_code(passphrase, lot, sequence, salt) (or without lot and sequence) returns c and create_new_encrypted_wif(c, wif_type, seed of 24 bytes, network) returns r, then decrypt(r.encrypted_wif, passphrase, network, detail=True) returns the key passfactor*factorb mod N in the requested WIF type, with the same public key, public-key type, address and seed as r and the lot and sequence given to intermediate_code, provided none of three byte values is zero: the first byte of the seed, byte 8 of the first cipher block, and the first byte of the resulting private key.", "quantifier": "all passphrases, salts, lots, sequences, seeds, coins, networks", "why_tests_cant": "composition of three calls over all inputs, resting on the elliptic-curve group law", "anchors": ["bip38/bip38.py:BIP38.intermediate_code", "bip38/bip38.py:BIP38.create_new_encrypted_wif", "bip38/bip38.py:BIP38.decrypt"]}
{"id": "C25", "title": "EC-multiply keys that can be created but not decrypted", "statement": "A user expects every encrypted key returned by create_new_encrypted_wif to be decryptable with the passphrase behind the intermediate code. This is false: for every created key whose private key has a zero first byte (and whose seed survives) decrypt with the right passphrase raises Secp256k1Error; and whenever the first byte of the 24-byte seed, or byte 8 of the first cipher block, is zero, decrypt with the right passphrase never reports that seed, and it returns the right private key only if the seed it reconstructs instead (shorter than 24 bytes) has the same double SHA-256.", "quantifier": "all passphrases, codes, seeds, coins and networks in the stated classes", "why_tests_cant": "happens with probability about 3/256 per created key", "anchors": ["bip38/bip38.py:BIP38.create_new_encrypted_wif", "bip38/bip38.py:BIP38.decrypt", "bip38/utils.py:integer_to_bytes"]}
{"id": "C26", "title": "Confirmation code round trip", "statement": "With c and r as in the EC-multiply round trip, confirm_code(passphrase, r.confirmation_code, network, detail=True) returns the same address, public key and public-key type as r and the lot and sequence of the intermediate code, provided neither half of factorb*G's x coordinate starts with a zero byte; the confirmation does not need the seed.", "quantifier": "all passphrases, salts, lots, sequences, seeds, coins, networks", "why_tests_cant": "composition over all inputs, rests on commutativity of scalar multiplication", "anchors": ["bip38/bip38.py:BIP38.create_new_encrypted_wif", "bip38/bip38.py:BIP38.confirm_code"]}
{"id": "C27", "title": "confirm_code soundness", "statement": "Whenever confirm_code returns an address, the first 4 bytes of its SHA256d equal the address hash stored in the code, the Base58Check checksum of the code was valid, its prefix was 0x643BF6A89A and the payload 51 bytes; the address is the P2PKH address (on the selected network) of the returned public key. All other inputs raise, with a message that quotes the actual length or prefix (the length message names 102 as expected although 51 bytes are required).", "quantifier": "all strings and passphrases", "why_tests_cant": "soundness over all inputs", "anchors": ["bip38/bip38.py:BIP38.confirm_code"]}
{"id": "C28", "title": "create_new_encrypted_wif output consistency", "statement": "Whenever create_new_encrypted_wif returns r: r.public_key is the serialisation of SHA256d(seed)*passpoint in the reported type, r.address is its P2PKH address on the selected network, r.seed is the hex of the seed used, and both r.encrypted_wif and r.confirmation_code are Base58Check texts carrying the same flag, the address hash of r.address and the owner entropy of the intermediate code, laid out as in BIP38.", "quantifier": "all intermediate codes, seeds, types, networks", "why_tests_cant": "relational claim over the whole output record", "anchors": ["bip38/bip38.py:BIP38.create_new_encrypted_wif"]}
{"id": "C29", "title": "create_new_encrypted_wif input validation", "statement": "It raises PassphraseError for every intermediate string that fails Base58Check (or is not ASCII) or does not carry 49 bytes, WIFError for every wif_type other than the two legal ones, Error for every other magic, Secp256k1Error for every passpoint that is not a compressed curve point; it never returns a record for such inputs, and the message quotes the offending length, wif type or magic.", "quantifier": "all strings, types, seeds", "why_tests_cant": "negative claim over all malformed inputs", "anchors": ["bip38/bip38.py:BIP38.create_new_encrypted_wif"]}
{"id": "C30", "title": "Seed length is not checked", "statement": "BIP38 requires a 24-byte seed and the documentation says 24. create_new_encrypted_wif does not check it. Shorter seeds are accepted unless one of the four blocks to be encrypted starts with a zero byte, and decrypt returns them (and the key) under the same conditions as 24-byte seeds. A seed longer than 24 bytes raises ValueError whenever byte 8 of the first cipher block is not zero; if such a call returns, decrypt with the right passphrase never returns that seed, and the right key only in case of a double SHA-256 collision.", "quantifier": "all seeds of any length other than 24", "why_tests_cant": "missing precondition check", "anchors": ["bip38/bip38.py:BIP38.create_new_encrypted_wif"]}
{"id": "C31", "title": "Network selection", "statement": "In encrypt, create_new_encrypted_wif, confirm_code and decrypt a missing or empty network means the instance's network, and every network name not in the coin's table raises NetworkError before anything else is examined, with a message that lists the coin's networks (and reports <class 'str'> instead of the offending name); results depend on the network only through its two prefixes, so networks with equal prefixes (Bitcoin testnet/regtest) give identical results.", "quantifier": "all coins, network strings and other arguments", "why_tests_cant": "relational claim over all arguments", "anchors": ["bip38/bip38.py:BIP38.encrypt", "bip38/bip38.py:BIP38.decrypt", "bip38/bip38.py:BIP38.create_new_encrypted_wif", "bip38/bip38.py:BIP38.confirm_code"]}
{"id": "C32", "title": "Constructor validation", "statement": "BIP38(coin, network) succeeds iff coin is an ICryptocurrency subclass with a network table and network is one of its names; then the instance's network and coin are those given. A class that is not a subclass raises CryptocurrencyError, an unknown network raises NetworkError listing the coin's networks.", "quantifier": "all coins and network strings", "why_tests_cant": "all strings", "anchors": ["bip38/bip38.py:BIP38.__init__"]}
{"id": "C33", "title": "Fallback RIPEMD-160 is RIPEMD-160", "statement": "The pure-Python ripemd160, which uses unbounded integers, negative intermediate values and lazy masking, returns for every byte string shorter than 2^61 bytes the 20-byte RIPEMD-160 digest (32-bit modular arithmetic, MD padding, little-endian length) and so does not depend on integer width; messages of 2^61 bytes or more raise struct.error.", "quantifier": "all byte strings", "why_tests_cant": "every message and every block count", "anchors": ["bip38/libs/ripemd160.py:ripemd160", "bip38/libs/ripemd160.py:compress", "bip38/libs/ripemd160.py:rol", "bip38/libs/ripemd160.py:fi"]}
{"id": "C34", "title": "Results do not depend on whether hashlib offers RIPEMD-160", "statement": "If hashlib's ripemd160 is RIPEMD-160, every address, encrypted key, code and decryption result is the same on a Python build with and without it.", "quantifier": "all inputs to all public functions", "why_tests_cant": "relational claim between two platforms", "anchors": ["bip38/crypto.py:ripemd160", "bip38/crypto.py:hash160"]}
{"id": "C35", "title": "Private key acceptance", "statement": "PrivateKey.from_bytes accepts a byte string iff it has 32 bytes and its big-endian value is in 1..N-1; raw() returns the same 32 bytes; every other byte string raises Secp256k1Error.", "quantifier": "all byte strings", "why_tests_cant": "2^256 values plus all lengths", "anchors": ["bip38/secp256k1/private_key.py:PrivateKey.from_bytes", "bip38/secp256k1/private_key.py:PrivateKey.raw"]}
{"id": "C36", "title": "Public key serialisation", "statement": "For every curve point P, PublicKey.from_bytes(raw_compressed(P)) and PublicKey.from_bytes(raw_uncompressed(P)) both give P; lengths are 33 and 65; from_bytes accepts only encodings of curve points with coordinates below the field prime and raises Secp256k1Error for every other byte string.", "quantifier": "all curve points, all byte strings", "why_tests_cant": "2^256 points; square roots modulo p", "anchors": ["bip38/secp256k1/public_key.py:PublicKey.from_bytes", "bip38/secp256k1/public_key.py:PublicKey.raw_compressed", "bip38/secp256k1/public_key.py:PublicKey.raw_uncompressed"]}
{"id": "C37", "title": "Key derivation is a group action", "statement": "For all private keys a, b in 1..N-1: the public key of a is an affine curve point, multiplying the public key of a by b gives the public key of a*b mod N, addition of points is commutative and associative, and distinct keys have distinct public keys.", "quantifier": "all scalars and points", "why_tests_cant": "needs the elliptic-curve group law and primality of p and N", "anchors": ["bip38/secp256k1/private_key.py:PrivateKey.public_key", "bip38/secp256k1/point.py:Point.__mul__", "bip38/secp256k1/point.py:Point.__add__", "bip38/secp256k1/public_key.py:PublicKey.from_point"]}
{"id": "C38", "title": "Every valid intermediate point can be multiplied", "statement": "secp256k1 has prime order N with cofactor 1: every curve point other than infinity times any scalar in 1..N-1 is an affine curve point, so create_new_encrypted_wif and confirm_code never meet the point at infinity whatever point the caller supplies.", "quantifier": "all curve points, all scalars", "why_tests_cant": "counts the points of the curve", "anchors": ["bip38/secp256k1/point.py:Point.__mul__", "bip38/bip38.py:BIP38.create_new_encrypted_wif", "bip38/bip38.py:BIP38.confirm_code"]}
{"id": "C39", "title": "Coin table is well formed", "statement": "Every network of every supported coin has a WIF prefix and an address prefix that fit the encodings: WIF prefix in 1..255, address prefix in 0..65535; every coin has at least one network; WIFs are 51 characters (uncompressed) or 52 (compressed) where the prefix is at least 0x80; for every coin and network all round trips above apply.", "quantifier": "all coins and networks in the table, all keys", "why_tests_cant": "all keys for all 150+ coins", "anchors": ["bip38/cryptocurrencies.py:ICryptocurrency", "bip38/wif.py:encode_wif"]}
{"id": "C40", "title": "A coin's own alphabet is not used", "statement": "BIP38 stores the coin's ALPHABET (Ripple's differs from Bitcoin's) but every address it returns is Base58-encoded with the Bitcoin alphabet: for Ripple, results are identical to those for a coin with the same prefixes and no alphabet, and the returned address is not the Ripple-alphabet address.", "quantifier": "all keys and arguments", "why_tests_cant": "relational claim over all inputs", "anchors": ["bip38/bip38.py:BIP38.__init__", "bip38/bip38.py:BIP38.encrypt", "bip38/cryptocurrencies.py:Ripple"]}
{"id": "C41", "title": "Which exceptions escape", "statement": "A user expects failures to be reported as bip38.exceptions.Error. For each of intermediate_code, encrypt, create_new_encrypted_wif, confirm_code and decrypt the set of exception classes that can escape is exactly determined for well-typed arguments, and every member of each set is reached: besides the library's classes, ValueError escapes from intermediate_code, encrypt, create_new_encrypted_wif and decrypt, and UnicodeEncodeError from intermediate_code, encrypt, confirm_code and decrypt; no OverflowError, TypeError, KeyError, AssertionError or other class ever does. decrypt raises ValueError exactly for EC records whose deciphered and unmasked second block starts with nine zero bytes (given a passphrase with a valid factor).", "quantifier": "all well-typed arguments", "why_tests_cant": "universal claim on failure paths", "anchors": ["bip38/bip38.py:BIP38", "bip38/exceptions.py"]}
{"id": "C42", "title": "Flag byte semantics in EC mode", "statement": "In EC mode decrypt and confirm_code treat a flag as compressed/with lot exactly according to the FLAGS table: for the sixteen legal EC flags this is bit 0x20 and bit 0x04; flags outside the table (reserved bits set, or the non-EC bits 0xC0) are not rejected.", "quantifier": "all 256 flag bytes", "why_tests_cant": "finite but combined with all payloads", "anchors": ["bip38/const.py:FLAGS", "bip38/bip38.py:BIP38.decrypt", "bip38/bip38.py:BIP38.confirm_code"]}
{"id": "C43", "title": "Random inputs are used in full", "statement": "Without owner_salt, intermediate_code uses exactly the 8 random bytes obtained from the OS as the entropy in the code (the first 4 when lot and sequence are given); without seed, create_new_encrypted_wif uses exactly the 24 random bytes and reports them as 'seed'; with explicit values no randomness is consumed and the result is a function of the arguments.", "quantifier": "all random outputs and arguments", "why_tests_cant": "randomness is different on every run", "anchors": ["bip38/bip38.py:BIP38.intermediate_code", "bip38/bip38.py:BIP38.create_new_encrypted_wif"]}
{"id": "C44", "title": "Error message format", "statement": "str(e) of a library exception is exactly the message, followed by ', (expected: E | got: 'G')' when a non-empty expectation is given and by the detail when given, where a list of expectations is rendered as quoted items separated by ', '; a message without expectation and detail is the text itself.", "quantifier": "all messages, details, expectations", "why_tests_cant": "string formatting over all inputs", "anchors": ["bip38/exceptions.py:Error.__init__", "bip38/exceptions.py:Error.__str__"]}
{"id": "C45", "title": "Byte reversal", "statement": "bytes_reverse is an involution that preserves length and converts between the two byte orders: bytes_to_integer(bytes_reverse(b), 'little') = bytes_to_integer(b, 'big').", "quantifier": "all byte strings", "why_tests_cant": "infinite domain", "anchors": ["bip38/utils.py:bytes_reverse"]}
{"id": "C46", "title": "Point wrapper", "statement": "Point.raw_encoded/raw_decoded of a curve point decode back to the same point through Point.from_bytes; x() and y() are its coordinates; from_coordinates accepts exactly pairs satisfying the curve equation modulo p; but Point.from_bytes accepts raw and uncompressed encodings of pairs that are not on the curve.", "quantifier": "all coordinate pairs and byte strings", "why_tests_cant": "all points", "anchors": ["bip38/secp256k1/point.py:Point"]}
{"id": "C47", "title": "Decryption on another network", "statement": "decrypt of an encrypted key with a network whose address prefix differs returns a WIF only if the address hashes collide in all 32 bits; with equal address prefixes it returns the same private key encoded with the other network's WIF prefix.", "quantifier": "all encrypted keys, passphrases, pairs of networks", "why_tests_cant": "relational claim over all inputs", "anchors": ["bip38/bip38.py:BIP38.decrypt"]}
{"id": "C48", "title": "Keys made by other software decrypt", "statement": "decrypt accepts every encrypted key without EC multiplication that conforms to BIP38, not only those that encrypt can produce: with the right passphrase it returns the key's WIF for the selected network and the matching detail; the only exception are private keys whose first byte is zero, for which it raises Secp256k1Error.", "quantifier": "all private keys, passphrases, networks, both compressions", "why_tests_cant": "all 2^256 keys; no such library is at hand to test with", "anchors": ["bip38/bip38.py:BIP38.decrypt"]}
{"id": "C49", "title": "EC-multiplied keys made by other software decrypt", "statement": "decrypt accepts every conforming EC-multiplied key (any legal or unknown flag byte with the same meaning), and returns the product key, the seed and the lot and sequence numbers, provided that neither the seed nor the second half of the first AES block starts with a zero byte; a product key starting with a zero byte raises Secp256k1Error.", "quantifier": "all passphrases, entropies, seeds, flags, networks", "why_tests_cant": "all seeds and passphrases", "anchors": ["bip38/bip38.py:BIP38.decrypt"]}
{"id": "C50", "title": "Outcome of decrypt on every record", "statement": "For any text that decodes to 43 bytes with a BIP38 magic and any passphrase the outcome of decrypt is determined: which of the five errors is raised or which key is returned is decided, in this order, by encodability of the passphrase, validity of the owner's factor, length of the unmasked blocks, range of the key, its first byte, and equality of the 4-byte address hash. In particular a passphrase is accepted iff the address hash matches.", "quantifier": "all 43-byte records, right or wrong passphrases", "why_tests_cant": "decision table over 2^344 records", "anchors": ["bip38/bip38.py:BIP38.decrypt"]}
{"id": "C51", "title": "Outcome of confirm_code on every code", "statement": "For any checksummed 51-byte code with the confirmation magic and any passphrase the outcome is determined: invalid factor gives Error; otherwise the code is confirmed iff the unmasked bytes are a compressed curve point and the hash of the address of (factor times that point) equals the hash in the code, and PassphraseError otherwise. Every conforming code is confirmed with the address of the key it belongs to, unless one of the two halves of the point's x coordinate starts with a zero byte, in which case it is always rejected.", "quantifier": "all codes and passphrases", "why_tests_cant": "decision table over 2^408 codes", "anchors": ["bip38/bip38.py:BIP38.confirm_code"]}
{"id": "C52", "title": "Error texts reveal no secret", "statement": "No exception of the library (bip38.exceptions) raised by decrypt, confirm_code, encrypt, create_new_encrypted_wif or intermediate_code carries the passphrase, the private key or the seed in its text: the text of every library exception is one of a fixed list of texts, or renders only the argument that was wrong (the WIF or code length, the network type, the lot or sequence number, the salt length, the WIF type), and does not depend on the passphrase.", "quantifier": "all calls and arguments", "why_tests_cant": "one leak on one input is enough to violate it", "anchors": ["bip38/bip38.py:BIP38", "bip38/exceptions.py:Error"]}
{"id": "C53", "title": "An encrypted key determines the private key", "statement": "With one passphrase two encryptions that return the same text were given the same private key and compression, on whatever networks: encrypt is injective.", "quantifier": "all pairs of WIFs and networks", "why_tests_cant": "relational claim over all pairs", "anchors": ["bip38/bip38.py:BIP38.encrypt"]}
{"id": "C54", "title": "Different seeds give different encrypted keys", "statement": "Two calls of create_new_encrypted_wif with one intermediate code that return the same encrypted WIF were given the same 24-byte seed and the same WIF type.", "quantifier": "all pairs of 24-byte seeds, WIF types, networks", "why_tests_cant": "relational claim over all pairs", "anchors": ["bip38/bip38.py:BIP38.create_new_encrypted_wif"]}
{"id": "C55", "title": "An intermediate code determines lot, sequence and salt", "statement": "Two calls of intermediate_code that return the same code, with whatever passphrases, were given the same lot, sequence and salt (its first 4 bytes when there is a lot), and their passphrases have the same owner factor; a code with lot and sequence is never equal to one without.", "quantifier": "all pairs of passphrases, lots, sequences, salts", "why_tests_cant": "relational claim over all pairs", "anchors": ["bip38/bip38.py:BIP38.intermediate_code"]}
{"id": "C56", "title": "One seed, one key", "statement": "For one intermediate code and seed the private key behind the new encrypted WIF is the same for both WIF types and for all networks; only its address and public key form differ.", "quantifier": "all codes, seeds, WIF types, networks", "why_tests_cant": "relational claim over all pairs", "anchors": ["bip38/bip38.py:BIP38.create_new_encrypted_wif"]}
{"id": "C57", "title": "A WIF of another network is refused", "statement": "encrypt given a WIF whose network prefix has the same length as, but differs from, the one of the selected network raises WIFError and returns nothing.", "quantifier": "all keys, passphrases, pairs of WIF prefixes", "why_tests_cant": "all 2^256 keys", "anchors": ["bip38/bip38.py:BIP38.encrypt", "bip38/wif.py:decode_wif"]}
{"id": "C58", "title": "Encrypting a decrypted key again", "statement": "If decrypt returned a WIF for a non-EC key, then encrypting that WIF with the same passphrase and network either reproduces the record (canonically checksummed) or raises ValueError, and which of the two is decided by whether the deciphered halves start with a zero byte; it never returns a different encrypted key.", "quantifier": "all 43-byte non-EC records and passphrases", "why_tests_cant": "all records, including those made elsewhere", "anchors": ["bip38/bip38.py:BIP38.encrypt", "bip38/bip38.py:BIP38.decrypt"]}
{"id": "C59", "title": "Signed integers and bytes", "statement": "bytes_to_integer(signed=True) returns the two's complement value of every non-empty byte string, in either byte order, and integer_to_bytes with the same width and signed=True gives the string back; with a width w exactly the integers in [-256^w/2, 256^w/2) are written and all others raise OverflowError. Without a width the chosen width is that of the unsigned shortest form, so integers below -128 and positive integers whose shortest form starts with a byte above 127 raise OverflowError.", "quantifier": "all byte strings, integers, widths and byte orders", "why_tests_cant": "all integers", "anchors": ["bip38/utils.py:integer_to_bytes", "bip38/utils.py:bytes_to_integer"]}
{"id": "C60", "title": "The branches for an old ecdsa package", "statement": "On every point of the curve the fallback serialisations of Point (used when the ecdsa package has no to_bytes) give the same bytes as the normal ones, compressed and raw. Reading 64 raw bytes back through the fallback gives the point, or AssertionError off the curve; the 33-byte compressed form is never read back as its point.", "quantifier": "all points of the curve and all byte strings", "why_tests_cant": "2^256 points", "anchors": ["bip38/secp256k1/point.py:Point.from_bytes", "bip38/secp256k1/point.py:Point.raw_encoded", "bip38/secp256k1/point.py:Point.raw_decoded"]}
{"id": "C61", "title": "The hash helpers take bytes or hexadecimal text", "statement": "sha256, double_sha256, hash160, ripemd160 and get_checksum give the same result for a byte string and for its hexadecimal text in any letter case, namely the hash of those bytes (get_checksum: the first four bytes of the double SHA-256); text that is not hexadecimal raises ValueError. None and other false values count as no bytes; any other object is a TypeError.", "quantifier": "all byte strings and texts", "why_tests_cant": "all inputs", "anchors": ["bip38/crypto.py:sha256", "bip38/crypto.py:double_sha256", "bip38/crypto.py:hash160", "bip38/crypto.py:ripemd160", "bip38/crypto.py:get_checksum"]}
{"id": "C62", "title": "Exceptions of the WIF and address codecs", "statement": "For text or byte arguments encode_wif raises only Secp256k1Error or ValueError; private_key_to_wif additionally WIFError (WIF type) and KeyError; decode_wif only WIFError or UnicodeEncodeError; wif_to_private_key, get_wif_type, get_wif_checksum additionally KeyError; P2PKHAddress.encode only Secp256k1Error or ValueError; P2PKHAddress.decode only AddressError, ValueError or UnicodeEncodeError. Each of these is reached. An unknown network name is a KeyError, not NetworkError, in these functions.", "quantifier": "all arguments", "why_tests_cant": "absence of other exceptions on all inputs", "anchors": ["bip38/wif.py:encode_wif", "bip38/wif.py:decode_wif", "bip38/wif.py:private_key_to_wif", "bip38/p2pkh_address.py:P2PKHAddress"]}
{"id": "C63", "title": "Addresses of another network are refused", "statement": "P2PKHAddress.decode of the address of any public key, in either form and over any alphabet, with an address prefix different from the one it was encoded with raises AddressError.", "quantifier": "all curve points, alphabets, pairs of prefixes", "why_tests_cant": "all points and pairs of prefixes", "anchors": ["bip38/p2pkh_address.py:P2PKHAddress.decode"]}
{"id": "C64", "title": "Encrypted keys outside the Base58 alphabet are accepted", "statement": "For every encrypted key there is a text containing the character 0, which is not in the alphabet, that decrypt treats exactly as the key itself, for every passphrase and network: decrypt does not reject texts that are not Base58.", "quantifier": "all encrypted keys, passphrases, networks", "why_tests_cant": "for-all-exists claim", "anchors": ["bip38/bip38.py:BIP38.decrypt", "bip38/libs/base58.py:decode"]}
{"id": "C65", "title": "Calls do not influence each other", "statement": "In every sequence of constructor and method calls of one process, on any number of objects, each call returns or raises what it would on a fresh object made with the same arguments in a process that had done nothing else (given the same next random bytes); with salt and seed given explicitly, the result is the same in every history.", "quantifier": "all finite histories of calls on any number of objects", "why_tests_cant": "all histories and their interleavings", "anchors": ["bip38/bip38.py:BIP38.__init__", "bip38/bip38.py:BIP38"]}
{"id": "C66", "title": "Random bytes are used once and in full", "statement": "In every history the random bytes taken by the calls are, in order, a prefix of what the random source delivers: none is used twice or discarded; a call takes 8 bytes as salt, 24 as seed, or none, and behaves as if they had been given explicitly. So two unsalted intermediate codes, or two unseeded keys made from one code, can only coincide if the random source repeated itself.", "quantifier": "all finite histories, all random sources", "why_tests_cant": "all histories", "anchors": ["bip38/bip38.py:BIP38.intermediate_code", "bip38/bip38.py:BIP38.create_new_encrypted_wif"]}
{"id": "C67", "title": "Which alphabets the Base58 functions work with", "statement": "base58.encode writes the base-L text for every alphabet of two or more characters (repeated and non-ASCII ones included), and base58.decode reads every ASCII text with every ASCII alphabet, the first of equal letters counting. An alphabet reads back everything it writes exactly when it has two or more letters, all different and all ASCII. The empty alphabet raises ZeroDivisionError on every input; with one letter, all-zero data can be written and the loop never ends on anything else.", "quantifier": "all alphabets, all byte strings and texts", "why_tests_cant": "infinitely many alphabets; an equivalence; non-termination", "anchors": ["bip38/libs/base58.py:encode", "bip38/libs/base58.py:decode"]}
{"id": "C68", "title": "Calls from several threads", "statement": "Let any number of threads call constructors and methods and assign to the network attribute of shared objects, each choosing its next call from the results it has had, scheduled in any way. Then the results are those of doing the calls one after another in the order in which they began; every thread's calls appear in its own order; no random byte is used by two calls and none is lost; an unsalted intermediate code gets 8 bytes and an unseeded key 24. If nobody assigns to network, every call on an existing object returns what it returns on a fresh object in a process that does nothing else. After object.network = n (n non-empty), calls without a network argument do what they did with network=n and calls with one are unaffected.", "quantifier": "all programs of any number of threads, all schedules of their steps, all random sources", "why_tests_cant": "all interleavings", "anchors": ["bip38/bip38.py:BIP38.__init__", "bip38/bip38.py:BIP38.intermediate_code", "bip38/bip38.py:BIP38.encrypt", "bip38/bip38.py:BIP38.create_new_encrypted_wif", "bip38/bip38.py:BIP38.confirm_code", "bip38/bip38.py:BIP38.decrypt"]}
{"id": "C69", "title": "Lot and sequence numbers given as text", "statement": "intermediate_code also takes lot and sequence as text. A text that writes an integer (spaces around, sign, digits with single underscores) is taken as that integer: text and integer are interchangeable for non-zero numbers, out-of-range numbers raise the same errors, and keys made from the code decrypt and report that lot and sequence. Sequence \"0\" given as text is kept, although 0 given as an integer is dropped (C23), so the two calls make different codes. Any other ASCII text raises ValueError.", "quantifier": "all ASCII texts, all integers, salts, passphrases", "why_tests_cant": "all texts; equivalence of two ways of calling", "anchors": ["bip38/bip38.py:BIP38.intermediate_code"]}
{"id": "C70", "title": "Bytes and hexadecimal text are interchangeable", "statement": "Wherever a function takes bytes or text (private key, public key, owner salt, seed), hexadecimal text in any letter case and with white space gives exactly the result of the bytes it writes, or the same exception class. The exception is text of white space only: as a salt it raises Error, and as a seed it stands for the empty seed, without randomness, so all such calls make the same key.", "quantifier": "all byte strings and all hexadecimal texts of them", "why_tests_cant": "all inputs; equivalence of two ways of calling", "anchors": ["bip38/wif.py:encode_wif", "bip38/wif.py:private_key_to_wif", "bip38/p2pkh_address.py:P2PKHAddress.encode", "bip38/bip38.py:BIP38.intermediate_code", "bip38/bip38.py:BIP38.create_new_encrypted_wif", "bip38/utils.py:get_bytes"]}
{"id": "C71", "title": "Arguments of the wrong type", "statement": "Python checks no types, so every argument of the constructor and of the five methods may be None, a bool, an int, bytes, text or another object. A method returns a result only if every argument declared as text is text (network, salt and seed may also be a false value, which counts as not given; salt and seed bytes). A network that is neither text nor false raises NetworkError naming its class; a key, code, seed or salt of a wrong type raises TypeError; a passphrase that is not text raises TypeError or what the call raises for every passphrase; a wif_type that is not text raises WIFError; detail counts as its truth value; True counts as lot or sequence 1 and ASCII bytes as text.", "quantifier": "all values of all arguments, all objects", "why_tests_cant": "every combination of types and values", "anchors": ["bip38/bip38.py:BIP38.__init__", "bip38/bip38.py:BIP38.intermediate_code", "bip38/bip38.py:BIP38.encrypt", "bip38/bip38.py:BIP38.create_new_encrypted_wif", "bip38/bip38.py:BIP38.confirm_code", "bip38/bip38.py:BIP38.decrypt", "bip38/libs/base58.py:decode", "bip38/utils.py:get_bytes"]}
{"id": "C72", "title": "The other functions with arguments of the wrong type", "statement": "The Base58, integer, WIF and address functions check no types either, and refuse other types only by what they do with them. Where text is read (decode, check_decode, decode_wif, wif_to_private_key, get_wif_type, get_wif_checksum, P2PKHAddress.decode) anything but text is a TypeError; encode, check_encode and bytes_to_integer take bytes only. ensure_string takes text and exactly the bytes that are the UTF-8 form of a text, and raises ValueError otherwise. integer_to_bytes raises TypeError without and AttributeError with a width on anything but an int; True and False count as 1 and 0; a byte order other than big or little is a ValueError. bytes_reverse(n) for an int n is n zero bytes. A network that is no name of the coin is a KeyError, a wrong WIF type a WIFError naming it, before the key is looked at. P2PKHAddress ignores keyword arguments it does not know, in any order, and takes every public_key_type but the text compressed for uncompressed. decode of the empty text succeeds with any alphabet. Nothing else returns a result for arguments of other types than the declared ones.", "quantifier": "all values of all modelled types in every argument position, all dictionaries of keyword arguments", "why_tests_cant": "every combination of types and values", "anchors": ["bip38/libs/base58.py:encode", "bip38/libs/base58.py:decode", "bip38/libs/base58.py:check_encode", "bip38/libs/base58.py:check_decode", "bip38/libs/base58.py:ensure_string", "bip38/libs/base58.py:string_to_int", "bip38/utils.py:integer_to_bytes", "bip38/utils.py:bytes_to_integer", "bip38/utils.py:bytes_reverse", "bip38/wif.py:encode_wif", "bip38/wif.py:decode_wif", "bip38/wif.py:private_key_to_wif", "bip38/wif.py:wif_to_private_key", "bip38/wif.py:get_wif_type", "bip38/wif.py:get_wif_checksum", "bip38/p2pkh_address.py:P2PKHAddress.encode", "bip38/p2pkh_address.py:P2PKHAddress.decode"]}
{"id": "C73", "title": "Changing a coin's table or an object's attributes", "statement": "Let a program change, between calls, the NETWORKS tables of the coin classes (put, change or delete entries) and the attributes network, networks and cryptocurrency of its BIP38 objects. The constructor accepts exactly the names that are in the class's table when it is called, and the object keeps that list of names: a network put into the table later is refused with NetworkError naming the old list, unless the object's networks attribute was replaced, which then decides. The prefixes, however, are those in the table when a method is called: each call with a known name does what it does on a fresh object of a class with just that entry. If the entry of a known name has been deleted, no method returns: encrypt raises KeyError, the others KeyError or an exception they raise for every prefix. Changes to other classes and other objects have no effect, intermediate_code is affected by none, no random byte is used twice, and without such changes the process is that of C65 and C66.", "quantifier": "all finite histories of constructor calls, method calls, table changes and attribute assignments, on any number of classes and objects", "why_tests_cant": "all histories and the times at which a table is changed relative to calls", "anchors": ["bip38/bip38.py:BIP38.__init__", "bip38/bip38.py:BIP38.encrypt", "bip38/bip38.py:BIP38.create_new_encrypted_wif", "bip38/bip38.py:BIP38.confirm_code", "bip38/bip38.py:BIP38.decrypt", "bip38/cryptocurrencies.py:ICryptocurrency"]}
{"id": "C74", "title": "Changes while a call runs", "statement": "Other threads may assign to an object's attributes and change its class's table between any two reads of a method that is running on it. A name that is not in the networks list at the time of the check raises NetworkError. create_new_encrypted_wif and confirm_code look up one entry, and do what they do undisturbed with that entry. decrypt looks up the address prefix and later the WIF prefix: it does what it does undisturbed with the two prefixes it finds, so if the entry is replaced in between it returns the right key with a WIF for the new and an address for the old network, although no such entry ever existed. encrypt looks up the WIF prefix twice and then the address prefix: with one-byte prefixes it does what it does undisturbed with one of the two and the address prefix, and returns a result only if they were equal, so it never encrypts another key. A method returns a result only if all its lookups find an entry.", "quantifier": "all sequences of states of the object and its class's table at the reads of a method, all arguments", "why_tests_cant": "all interleavings of a call with changes by other threads", "anchors": ["bip38/bip38.py:BIP38.encrypt", "bip38/bip38.py:BIP38.create_new_encrypted_wif", "bip38/bip38.py:BIP38.confirm_code", "bip38/bip38.py:BIP38.decrypt", "bip38/wif.py:get_wif_type", "bip38/wif.py:wif_to_private_key", "bip38/wif.py:private_key_to_wif"]}
{"id": "C75", "title": "An EC-multiplied key can be made again from what decrypt reports", "statement": "If decrypt with detail=True reports a 24-byte seed for an EC-multiplied key, then intermediate_code with the same passphrase, the reported lot and sequence numbers (in range, sequence at least 1) or none, and the salt, which stands in the key in the clear, gives a code, and create_new_encrypted_wif with that code and seed gives back the very same encrypted key (with a correct checksum, whatever the checksum of the decrypted text was), the same address and the same public key; or it raises ValueError, exactly when one of the four masked blocks starts with a zero byte.", "quantifier": "all texts decrypt accepts, all passphrases, networks, flags, salts", "why_tests_cant": "round trip in the other direction: ranges over every key that decrypts, not over keys this library made", "anchors": ["bip38/bip38.py:BIP38.decrypt", "bip38/bip38.py:BIP38.intermediate_code", "bip38/bip38.py:BIP38.create_new_encrypted_wif"]}
{"id": "C76", "title": "The exact outcome of encrypt", "statement": "For every text given as the key, encrypt does exactly this, in this order of checks: a non-ASCII text raises UnicodeEncodeError; a text whose Base58 bytes are not the network's WIF prefix, 32 bytes, an optional marker byte and four more bytes raises WIFError; a private key that is zero or not below the group order raises Secp256k1Error; a passphrase without a UTF-8 form raises UnicodeEncodeError; if byte 0 or byte 16 of the key equals that byte of the derived key it raises ValueError; and otherwise it returns the BIP38 text of the key. It checks neither the WIF's checksum nor the value of its marker byte, so any text with those bytes gives the same encrypted key as the proper WIF, and decrypt gives the proper WIF back unless the key starts with a zero byte (C12).", "quantifier": "all texts, passphrases, networks", "why_tests_cant": "complete case distinction over all texts", "anchors": ["bip38/bip38.py:BIP38.encrypt", "bip38/wif.py:decode_wif"]}
{"id": "C77", "title": "The exact outcome of create_new_encrypted_wif for seeds of any length", "statement": "For every valid intermediate code and every seed, of whatever length, whose double hash is a valid scalar, create_new_encrypted_wif succeeds exactly if each of the four masked values (the first 16 bytes of the seed; the second half of the first encrypted block followed by the rest of the seed; the two halves of the public point), combined with the mask as numbers, has a shortest form of exactly 16 bytes, and the encrypted key, the confirmation code, the address and the public key are those the formats give for these blocks. Otherwise it raises ValueError.", "quantifier": "all codes, seeds, networks, WIF types", "why_tests_cant": "all seeds of all lengths; complete case distinction", "anchors": ["bip38/bip38.py:BIP38.create_new_encrypted_wif"]}
{"id": "C78", "title": "The exact outcome of intermediate_code", "statement": "Every call of intermediate_code falls in exactly one of these cases: a salt of other than 4 or 8 bytes, a 4-byte salt without both numbers, one number given (not zero) without the other, a lot outside 100000..999999, a sequence outside 1..4095 each raise Error with a fixed text; with two non-zero numbers in range the entropy is the first four salt bytes and lot * 4096 + sequence, and otherwise (a number missing or zero) the whole salt. Then a passphrase without UTF-8 form raises UnicodeEncodeError, a derived factor that is no private key raises Secp256k1Error, and any other passphrase gives the code of its public point.", "quantifier": "all passphrases, lot and sequence numbers, salts", "why_tests_cant": "complete case distinction over all arguments", "anchors": ["bip38/bip38.py:BIP38.intermediate_code"]}
{"id": "C79", "title": "Length and first characters of WIFs and addresses", "statement": "For each of the networks of the coin table there are a fixed number of characters and fixed first characters: every WIF that private_key_to_wif or decrypt gives for the network, and every address P2PKHAddress.encode, decrypt or create_new_encrypted_wif gives, has that length and begins with one of those characters (Bitcoin mainnet: 51 characters from 5, 52 from K or L; testnet: 9, c, and addresses of 34 characters from m or n). Addresses for prefix 0 begin with 1 and have 25 to 34 characters.", "quantifier": "all keys and points, all coins and networks of the table", "why_tests_cant": "the range of all keys; texts near the boundaries are never hit by examples", "anchors": ["bip38/wif.py:private_key_to_wif", "bip38/wif.py:encode_wif", "bip38/p2pkh_address.py:P2PKHAddress.encode", "bip38/bip38.py:BIP38.decrypt", "bip38/bip38.py:BIP38.create_new_encrypted_wif", "bip38/cryptocurrencies.py:ICryptocurrency"]}
{"id": "C80", "title": "Defaults fixed at import, tables read at each call", "statement": "encode_wif and decode_wif without wif_prefix use the prefix Bitcoin's mainnet had when the package was imported, and P2PKHAddress without address_prefix the one it had then or the last value assigned to P2PKHAddress.address_prefix, whatever is done to the NETWORKS tables later. private_key_to_wif, wif_to_private_key, get_wif_type and get_wif_checksum read the table at each call (KeyError once the entry is gone). So the two groups agree while mainnet keeps its prefix, and with another prefix of as many bytes, each group refuses the WIFs of the other. The package cannot be imported without Bitcoin's mainnet, and no such call disturbs the rest of the process.", "quantifier": "all histories of calls and table changes, all keys and texts", "why_tests_cant": "a statement about every history", "anchors": ["bip38/wif.py:encode_wif", "bip38/wif.py:decode_wif", "bip38/wif.py:private_key_to_wif", "bip38/wif.py:wif_to_private_key", "bip38/wif.py:get_wif_type", "bip38/wif.py:get_wif_checksum", "bip38/p2pkh_address.py:P2PKHAddress"]}
{"id": "C81", "title": "Interrupted calls leave no trace", "statement": "If KeyboardInterrupt, a signal handler's exception or MemoryError cuts a call short at any point, the calls that end by themselves get what they would get in a process without the interrupted ones, up to which random bytes they draw; a call that needs no random bytes gets exactly what it gets alone on a new object. An interrupted call has taken the 8 or 24 random bytes it asks for, or none; they are lost, and no byte is ever handed out twice, so a call made again in its place draws new ones.", "quantifier": "all histories, all interrupted calls and points of interruption", "why_tests_cant": "every crash point of every history", "anchors": ["bip38/bip38.py:BIP38.__init__", "bip38/bip38.py:BIP38.intermediate_code", "bip38/bip38.py:BIP38.create_new_encrypted_wif", "bip38/bip38.py:BIP38.encrypt", "bip38/bip38.py:BIP38.confirm_code", "bip38/bip38.py:BIP38.decrypt"]}
{"id": "C82", "title": "What the library writes, any conforming program reads, and the other way round", "statement": "Every text encrypt returns is read by a decryptor written strictly after the BIP38 text (blocks of fixed length, no leading zero byte dropped, checksum and address hash verified) as exactly the key and form it was made from, also for the keys decrypt itself refuses (C12). Every key create_new_encrypted_wif makes from a 24-byte seed is read by it, with the owner's passphrase, as exactly the entropy, seed and key of the returned address, and the confirmation code confirms exactly that address, also in the cases decrypt and confirm_code refuse (C25, C26). With a seed of another length no such reader finds the seed, nor the key unless two seeds collide under double SHA-256. Conversely, on a text with correct checksum and a flag of the BIP, whatever decrypt returns (for seeds of 24 bytes) and whatever confirm_code returns is what that reader finds.", "quantifier": "all networks, keys, passphrases, codes, seeds and texts", "why_tests_cant": "all inputs; the other program is any that follows the BIP", "anchors": ["bip38/bip38.py:BIP38.encrypt", "bip38/bip38.py:BIP38.create_new_encrypted_wif", "bip38/bip38.py:BIP38.decrypt", "bip38/bip38.py:BIP38.confirm_code"]}
{"id": "C83", "title": "Passphrases that look the same are the same, and only those", "statement": "intermediate_code, encrypt, confirm_code and decrypt give identical results for canonically equivalent passphrases (the same text with composed or decomposed letters, combining marks in another order, Hangul as syllables or as letters), whatever keyboard or system typed them; passphrases that are not canonically equivalent reach scrypt as different bytes. The bytes are the UTF-8 of a canonically equivalent text in which everything that can be composed is composed, and normalising that text again changes nothing. A passphrase of code points can be used exactly if it contains no surrogate. Text below U+0300 is used as typed.", "quantifier": "all passphrases (sequences of code points)", "why_tests_cant": "infinitely many texts; tests use a handful", "anchors": ["bip38/bip38.py:BIP38.intermediate_code", "bip38/bip38.py:BIP38.encrypt", "bip38/bip38.py:BIP38.confirm_code", "bip38/bip38.py:BIP38.decrypt"]}
{"id": "C84", "title": "Under Python 3.14 and later the library does the same, but may show bytes as bytes", "statement": "From Python 3.14 on, where bytes.fromhex accepts bytes, the library accepts and refuses the same calls and produces the same encrypted WIFs, codes, WIFs and addresses. What changes: a value the library shows through bytes_to_string (a private key, a seed, a checksum, a public key hash) is returned as the bytes themselves instead of hexadecimal text exactly if those bytes happen to be hexadecimal text in ASCII, and error texts that quote or count such bytes change accordingly; public keys are always text. Passing such a value back to the library gives the same result as passing the bytes.", "quantifier": "all calls of the WIF functions, P2PKHAddress.decode and the five methods, all arguments of the declared types, all private keys, seeds and salts", "why_tests_cant": "the bytes concerned are rare (all characters hexadecimal digits or white space) and the interpreter is not the one tests ran on", "anchors": ["bip38/utils.py:bytes_to_string", "bip38/wif.py:wif_to_private_key", "bip38/wif.py:get_wif_checksum", "bip38/bip38.py:BIP38.intermediate_code", "bip38/bip38.py:BIP38.encrypt", "bip38/bip38.py:BIP38.create_new_encrypted_wif", "bip38/bip38.py:BIP38.confirm_code", "bip38/bip38.py:BIP38.decrypt"]}
{"id": "C85", "title": "Python's limit on the digits of numbers changes no intermediate code", "statement": "Where Python limits conversions between int and text (4300 digits by default; any limit Python allows, that is 640 or more), intermediate_code with lot and sequence as integers or ASCII text of at most that many digits does what it does without a limit; with any arguments it does the same or raises ValueError, so it never makes another code. With a valid owner salt and both numbers given, a lot number of more digits than the limit (as text, also by leading zeros, or as an integer) and a sequence number of more digits as text raise ValueError, as does such an integer as sequence number with a valid lot number, and such an integer given alone. The number an error text shows is the decimal text of the number that was given, and int() reads that text as the same number.", "quantifier": "all limits, passphrases, lot and sequence numbers as integers or text, owner salts, random bytes", "why_tests_cant": "numbers of unbounded size", "anchors": ["bip38/bip38.py:BIP38.intermediate_code"]}
{"id": "C86", "title": "The tables of supported coins list every coin", "statement": "docs/tools/generate_cryptocurrencies_table.py writes two HTML tables. Read as tables (cells of rows, tags removed), each has a header row and then, for every coin class of the module, in the order of the names and once each, one row per network in the order of NETWORKS with the network's name, WIF prefix and address prefix in lower-case hexadecimal of at least two digits after 0x; the first row of a coin also shows its name, in a cell spanning exactly as many rows as the coin has networks.", "quantifier": "all sets of coin classes with distinct names, with any networks and any prefixes from 0 on, whose names are not empty and contain no <", "why_tests_cant": "tests run the script on one module, if at all", "anchors": ["docs/tools/generate_cryptocurrencies_table.py", "bip38/cryptocurrencies.py"]}
{"id": "C87", "title": "What the example programs print agrees, and can be read back as JSON", "statement": "The dictionaries and texts that create_new_encrypted_wif, confirm_code and decrypt return, written with json.dumps(..., indent=4) as the programs in examples/ and the README do, are read by any JSON reader as exactly the same keys and values. With any passphrase, coin, network, WIF, salt, seed, WIF type, lot and sequence number at their beginning, the two programs without EC multiplication print the encrypted key and then the WIF, key, public key and address they started from (for the keys C12 and C13 allow); the four with EC multiplication, once they have printed an encrypted key, go on to the end and print the same seed, public key, address, lot and sequence numbers each time, and the private key that belongs to them, unless one of five bytes is zero (C25, C26).", "quantifier": "all constants of the programs, all salts and seeds, all results of the methods; all dictionaries of Unicode texts, integers and None", "why_tests_cant": "the programs use random salts and seeds; texts are unbounded", "anchors": ["examples/", "bip38/bip38.py:BIP38.create_new_encrypted_wif", "bip38/bip38.py:BIP38.confirm_code", "bip38/bip38.py:BIP38.decrypt"]}
{"id": "C88", "title": "Lot and sequence numbers given as floats", "statement": "A float that is not zero, as lot or sequence number of intermediate_code, counts as the integer left when its fraction is dropped (towards zero): for whole parts other than 0 the outcome, code or error, is that of these integers. A sequence between -1 and 1 other than 0, such as 0.5, makes a code with lot number and sequence 0, which the integer 0 never does. 0.0 and -0.0 are the integer 0; an infinity is an OverflowError and NaN a ValueError, of the lot first; a single number is refused with an error that shows the float.", "quantifier": "all finite floats (of any precision), infinities and NaN, mixed with integers and text, for all passphrases and salts", "why_tests_cant": "floats are not covered by the declared types, and there are 2^64 of them", "anchors": ["bip38/bip38.py:BIP38.intermediate_code"]}
{"id": "C89", "title": "Calculations with Point objects", "statement": "Any expression built from points of keys (PrivateKey.from_bytes(..).public_key().point()), points read from bytes, + and * by integers of either sign gives the public point of one integer, computed from the secret numbers of its leaves with ordinary + and * and reduced modulo the group order; it gives the point at infinity exactly when that remainder is 0. Two expressions give the same point exactly when their integers agree modulo the order. PublicKey.from_point of the result is the public key of the remainder. The point at infinity has coordinates None; its encodings are AttributeErrors and PublicKey.from_point refuses it with a TypeError. Only a refused leaf makes the calculation fail, with a Secp256k1Error.", "quantifier": "all expressions of any size and shape, all private keys, all encodings of curve points, all integer factors", "why_tests_cant": "the group law must hold for every combination of 2^256 points, in every order of evaluation", "anchors": ["bip38/secp256k1/point.py:Point.__add__", "bip38/secp256k1/point.py:Point.__mul__", "bip38/secp256k1/point.py:Point.__radd__", "bip38/secp256k1/point.py:Point.__rmul__", "bip38/secp256k1/point.py:Point.from_bytes", "bip38/secp256k1/public_key.py:PublicKey.from_point", "bip38/secp256k1/private_key.py:PrivateKey.public_key"]}
{"id": "C90", "title": "A passphrase matters only through scrypt", "statement": "Two passphrases for which scrypt (N = 16384, r = 8, p = 8, 64 or 32 bytes) gives the same bytes under the one salt the operation uses are interchangeable: encrypt, decrypt (of non-EC and of EC-multiplied keys), intermediate_code and confirm_code then give the same outcome. The salt is the 4-byte address hash for a non-EC key, and for an intermediate or EC-multiplied code the owner salt: 8 bytes, or only the first 4 of them when there is a lot number.", "quantifier": "all pairs of passphrases, keys, codes, salts, networks, lot and sequence numbers, and every scrypt", "why_tests_cant": "quantifies over all pairs of passphrases and over the key derivation itself", "anchors": ["bip38/bip38.py:BIP38.encrypt", "bip38/bip38.py:BIP38.decrypt", "bip38/bip38.py:BIP38.intermediate_code", "bip38/bip38.py:BIP38.confirm_code"]}
{"id": "C91", "title": "Passphrases that the published scrypt cannot tell apart", "statement": "With scrypt as in RFC 7914 (PBKDF2-HMAC-SHA256 keyed by the passphrase bytes) two passphrases of at most 64 UTF-8 bytes that differ only in trailing NUL characters are interchangeable everywhere, and a passphrase of more than 64 bytes is interchangeable with the one whose UTF-8 bytes are its SHA-256 digest, when there is one.", "quantifier": "all passphrases with trailing NULs, all passphrases of more than 64 bytes, in all operations", "why_tests_cant": "the collisions are rare inputs; that each is a collision in every operation needs a proof", "anchors": ["bip38/bip38.py:BIP38.encrypt", "bip38/bip38.py:BIP38.decrypt", "bip38/bip38.py:BIP38.intermediate_code", "bip38/bip38.py:BIP38.confirm_code"]}
{"id": "C92", "title": "RIPEMD-160 listed but not provided", "statement": "When hashlib lists ripemd160 in algorithms_available but hashlib.new raises ValueError (OpenSSL 3 without its legacy provider), the pure Python implementation is not used: ripemd160, hash160, P2PKHAddress.encode, encrypt, create_new_encrypted_wif, confirm_code and decrypt never succeed. Whatever would have succeeded is a ValueError, and every failure is a ValueError or the error the call gives anyway; decrypt never says Incorrect passphrase, so a right and a wrong passphrase look the same. intermediate_code, Base58Check, the WIF functions, address decoding and the SHA-256 helpers are not affected.", "quantifier": "all arguments of all these functions, all sessions and networks", "why_tests_cant": "depends on the installation of OpenSSL; the tests run where the hash works or is not listed", "anchors": ["bip38/crypto.py:ripemd160", "bip38/crypto.py:hash160", "bip38/p2pkh_address.py:P2PKHAddress.encode", "bip38/bip38.py:BIP38.encrypt", "bip38/bip38.py:BIP38.decrypt", "bip38/bip38.py:BIP38.create_new_encrypted_wif", "bip38/bip38.py:BIP38.confirm_code"]}
{"id": "C93", "title": "Which questions scrypt is asked", "statement": "The outcome of a call depends on scrypt only through named evaluations; it stays the same if scrypt is replaced by any function of the same lengths that agrees there. intermediate_code: one with N=16384, r=8, p=8 for the passphrase and the salt (its first four bytes with lot and sequence numbers), 32 bytes. encrypt and decrypt of a plain key: one with these parameters for the address hash, 64 bytes. decrypt of an EC-multiplied key and confirm_code: one with these parameters for the owner salt, and, if that gives a private key, one with N=1024, r=1, p=1 for the compressed pass point and address hash plus entropy. create_new_encrypted_wif: only N=1024, r=1, p=1, for the pass point in the code and the new address hash plus entropy. A text that is not an encrypted key (other length, other prefix, other plain flag), a confirmation code that is misspelt or begins otherwise, a WIF of another network or with a number that is not a private key, and salt, lot or sequence out of range are refused whatever scrypt and whatever passphrase are used.", "quantifier": "all functions in place of scrypt, all arguments of these calls, all sessions and networks", "why_tests_cant": "a statement about every other hash function and every input; a test can only count calls in single runs", "anchors": ["bip38/bip38.py:BIP38.intermediate_code", "bip38/bip38.py:BIP38.encrypt", "bip38/bip38.py:BIP38.create_new_encrypted_wif", "bip38/bip38.py:BIP38.confirm_code", "bip38/bip38.py:BIP38.decrypt"]}
{"id": "C94", "title": "Coin classes that inherit or share a table", "statement": "A coin class sees the NETWORKS table of the first class in its method resolution order that holds one, and a table held or seen by several classes is one table: an entry put, changed or deleted through one of them is so for all. Let a program do what C73 allows and also assign tables (class.NETWORKS = a new dict, or another class's table). At any time the constructor accepts exactly the names in the table its class then sees; the object keeps these names (others are refused with NetworkError naming them), and each method takes the prefixes from the table the object's class sees when it is called, as a fresh object of a class with just that entry would; if that table has no entry for a known name no method returns, as in C73. Statements that look up an entry raise KeyError exactly if the class sees none. A subclass that is never given a table (single inheritance, same ALPHABET) can be replaced by its base throughout without changing any outcome, and with a table for each class the process is that of C73.", "quantifier": "all class hierarchies (any resolution orders, every class seeing some table), all sequences of operations", "why_tests_cant": "the histories and hierarchies are unbounded, and the aliasing shows only in combinations", "anchors": ["bip38/bip38.py:BIP38.__init__", "bip38/bip38.py:BIP38", "bip38/cryptocurrencies.py:ICryptocurrency"]}
{"id": "C95", "title": "Results do not depend on the curve package beyond SEC 1, nor on python -O", "statement": "The five methods of BIP38 and P2PKHAddress.encode (of a public key on the curve) return and raise the same over every elliptic-curve package that does what SEC 1 and SEC 2 say about valid keys: accepts as private keys exactly the 32-byte numbers from 1 to n-1, accepts as public keys, among strings of up to 33 bytes, exactly the compressed points, multiplies by exponents from 1 to n-1, and writes points in SEC 1 form. What a package does with longer strings, points off the curve or exponents out of range never matters to them (for an address of a public key given as bytes or text, it must also read the other forms ecdsa reads). In particular python -O, which removes the assertions of the ecdsa package, changes nothing in them. It does change the classes: Point.from_coordinates then accepts every pair of integers instead of raising AssertionError off the curve, and PublicKey.from_point still accepts exactly the points of the curve but refuses the others with Secp256k1Error instead of AssertionError; whatever else these classes return or raise stays the same.", "quantifier": "all curve packages meeting the specification, all arguments of all methods", "why_tests_cant": "the packages are not a finite set, and tests run under one of them, without -O", "anchors": ["bip38/bip38.py:BIP38", "bip38/secp256k1/public_key.py:PublicKey.from_point", "bip38/secp256k1/point.py:Point.from_coordinates", "bip38/secp256k1/private_key.py:PrivateKey.from_bytes"]}
{"id": "C96", "title": "No operation inside the bundled RIPEMD-160 fails", "statement": "ripemd160(data) returns the RIPEMD-160 digest for every bytes of less than 2^61 bytes: no list index is out of range, no shift is negative, struct.unpack always gets 4 bytes, and the assertion in fi is never reached (so python -O makes no difference). For longer data it raises struct.error.", "quantifier": "all byte strings", "why_tests_cant": "for every length and content, and the claim is about branches no input reaches", "anchors": ["bip38/libs/ripemd160.py:ripemd160", "bip38/libs/ripemd160.py:compress", "bip38/libs/ripemd160.py:fi"]}
{"id": "C97", "title": "Exchanging the libraries for hashes, scrypt, AES and Unicode", "statement": "Take two sets of libraries (hashlib, scrypt, pyaes, unicodedata) that give the same SHA-256 digests and the same NFC forms, the same RIPEMD-160 digests of 32-byte strings (the bundled function counting where hashlib has none), the same scrypt results for the parameters (16384, 8, 8) with 32 or 64 bytes and (1024, 1, 1) with 64 bytes, and the same AES results on single 16-byte blocks under 32-byte keys. Then all five methods of BIP38, the hash helpers sha256, double_sha256, get_checksum and hash160, Base58Check, private_key_to_wif and the address functions return and raise the same with either, for all arguments. What the libraries do on anything else (other key sizes, other parameters, longer data) never matters.", "quantifier": "all pairs of libraries that agree on these questions, all arguments", "why_tests_cant": "neither the libraries nor the arguments are a finite set", "anchors": ["bip38/bip38.py:BIP38", "bip38/crypto.py:hash160", "bip38/crypto.py:get_checksum", "bip38/wif.py:private_key_to_wif", "bip38/p2pkh_address.py:P2PKHAddress.encode"]}
{"id": "C98", "title": "Errors that cross process borders", "statement": "Every exception the library raises, sent to another process with pickle (as multiprocessing and concurrent.futures do with the exception of a worker) or copied with the copy module, arrives as an exception of the same class with the same str and repr, however often it is passed on; the objects quoted in it with got= need not be picklable. What is lost is only the exception it was raised from. The text is the one of C44; repr and args show the message alone. This holds because every raise statement gives the message by position: any exception of these classes made so, with arguments that can be pickled, arrives; one made with message=... cannot be put together again and raises TypeError instead.", "quantifier": "all messages, details, expectations and values quoted, all classes of the library, any number of crossings", "why_tests_cant": "all arguments, any number of crossings; a failure shows only in the receiving process", "anchors": ["bip38/exceptions.py:Error.__init__", "bip38/exceptions.py:Error.__str__"]}
{"id": "C99", "title": "Copied objects and worker processes", "statement": "Let several processes make BIP38 objects, call their methods, change tables and attributes, copy objects (copy.copy, copy.deepcopy), send them to each other with pickle, and fork. A copied or sent object begins with the class, names and network the original has then; a child process begins with all its parent has. A sent or deep-copied object stays so whatever is done to the original or to anything else, until a statement names it, and so does the original; what other processes do changes neither objects nor tables of a process. copy.copy shares the list of names: changed in place through either object it is changed for both, until one is given another list. A method call goes by the names its object has and by the table its own process has for the object's class at that time: other names are refused with NetworkError naming the list, and with an entry for the name the call does what a fresh object of a class with just that entry does; so an object sent to a worker works there with the prefixes of the worker's table. No random byte is used twice, in whatever processes, forked ones included.", "quantifier": "all histories of any number of processes, all arguments", "why_tests_cant": "the histories, processes and interleavings are unbounded", "anchors": ["bip38/bip38.py:BIP38.__init__", "bip38/bip38.py:BIP38", "bip38/cryptocurrencies.py:ICryptocurrency"]}
{"id": "C100", "title": "The interpreter's flag -bb", "statement": "Under python -bb, with which showing a bytes object as text raises BytesWarning, every call ends as without the flag, with two exceptions: confirm_code, given the Base58Check text of 51 bytes whose first five are not those of a confirmation code, raises BytesWarning in place of Error; and P2PKHAddress.decode, given an address of the right length under another prefix, raises BytesWarning in place of AddressError. The functions on WIFs and encrypt never show bytes, whatever the text and the prefix.", "quantifier": "all texts, prefixes, alphabets, passphrases and networks", "why_tests_cant": "all texts and prefixes; test suites run without the flag", "anchors": ["bip38/bip38.py:BIP38.confirm_code", "bip38/p2pkh_address.py:P2PKHAddress.decode", "bip38/wif.py:decode_wif", "bip38/exceptions.py:Error.__init__"]}
{"id": "C101", "title": "What a traceback shows", "statement": "An exception of a method of BIP38, shown with the exceptions it was raised after, says nothing about the passphrase: the exceptions before it are those of the library and of the ecdsa package with fixed texts, the ValueError of a checksum, or the exception about the code that was read. If the call ends with UnicodeEncodeError, nothing is before it and it is about the text to be read, which is not ASCII, or about the normalised passphrase, which has no UTF-8; its text names the positions of the first such run of characters and, if the run is one character, that character, which is one that has no UTF-8, written as a backslash and its hexadecimal digits, and so it is the same for all passphrases with that run and character. Its attribute object, however, is the whole text or the whole normalised passphrase. A code that is not ASCII gives confirm_code's or create_new_encrypted_wif's own error with that exception before it.", "quantifier": "all arguments of the methods", "why_tests_cant": "all texts and passphrases; assertRaises looks at the class only", "anchors": ["bip38/bip38.py:BIP38", "bip38/libs/base58.py:decode", "bip38/wif.py:decode_wif", "bip38/secp256k1/private_key.py:PrivateKey.from_bytes", "bip38/secp256k1/public_key.py:PublicKey.from_bytes"]}
{"id": "C102", "title": "Texts of one kind are refused as another", "statement": "Encrypted keys, confirmation codes, intermediate codes, WIFs and addresses cannot be taken for one another: a text for which one of decrypt, confirm_code, create_new_encrypted_wif, the WIF readers (and so encrypt) and P2PKHAddress.decode returns a result is refused by each of the others, for whatever network, passphrase, prefix and other arguments, with that reader's own exception, whose text tells at most the length of what was read; P2PKHAddress.decode may also raise its checksum's ValueError.", "quantifier": "all texts, sessions, passphrases, prefixes of one or two bytes and other arguments", "why_tests_cant": "all texts and all pairs of readers", "anchors": ["bip38/bip38.py:BIP38", "bip38/wif.py:decode_wif", "bip38/p2pkh_address.py:P2PKHAddress.decode", "bip38/libs/base58.py:check_decode"]}
{"id": "C103", "title": "A bytearray handed in is not changed, and taken as bytes or refused", "statement": "Given a bytearray, no function writes to it, also if it is changed meanwhile. Base58 encode and check_encode, bytes_reverse, bytes_to_integer and the from_bytes of keys take it as the bytes it holds; get_bytes, bytes_to_string, the hash helpers, the WIF functions, P2PKHAddress.encode, a salt or a seed refuse it with TypeError unless it is empty, when it is as b'' (and for a salt or seed as none). If it is changed while the call runs: encode gives the digits of one moment, perhaps with another number of leading zeros; check_encode gives a text that check_decode refuses or takes for the contents at one moment; a salt or seed is never taken from it. The buffers that decode and bytes_reverse use themselves cannot be reached from outside.", "quantifier": "all contents, all changes at all moments of the call, all other arguments", "why_tests_cant": "all contents and all schedules of changes", "anchors": ["bip38/utils.py:get_bytes", "bip38/utils.py:bytes_reverse", "bip38/utils.py:bytes_to_string", "bip38/utils.py:bytes_to_integer", "bip38/libs/base58.py:encode", "bip38/libs/base58.py:check_encode", "bip38/libs/base58.py:decode", "bip38/crypto.py:sha256", "bip38/wif.py:encode_wif", "bip38/p2pkh_address.py:P2PKHAddress.encode", "bip38/bip38.py:BIP38.intermediate_code", "bip38/bip38.py:BIP38.create_new_encrypted_wif"]}
{"id": "C104", "title": "A mistyped character", "statement": "base58.decode never reads a text and its misprint (one character replaced by any other, or two different neighbours exchanged) as the same bytes; so check_decode, and the address decoding, never take a misprint for the same contents. Where the checksum is not compared: if decrypt accepts an encrypted key and a misprint with at least six characters behind it, the 39-byte records differ, and of two keys without EC multiplication the same passphrase never opens both to the same result; the same for decode_wif with six (wif) or seven (wif-compressed) characters behind: never the same key and type. But a replaced character that changes the value by no more than the four checksum bytes can hold is not noticed: decrypt gives the same for all arguments; for every encrypted key and every WIF (prefix at least 1) with a checksum other than 00000000 and ffffffff there is another last character, accepted as the same key.", "quantifier": "all texts over the alphabet, all misprints, all passphrases and sessions", "why_tests_cant": "all texts and misprints", "anchors": ["bip38/libs/base58.py:decode", "bip38/libs/base58.py:check_decode", "bip38/wif.py:decode_wif", "bip38/p2pkh_address.py:P2PKHAddress.decode", "bip38/bip38.py:BIP38.decrypt"]}
{"id": "C105", "title": "Characters around a text are not ignored", "statement": "White space, line ends, quotes or any other ASCII characters outside the alphabet, put in front of or behind a text, are never stripped. In front: whatever follows, base58.decode gives no bytes at all and every reader refuses: check_decode and the address decoding with ValueError, decode_wif and encrypt with WIFError 'Invalid Wallet Import Format (WIF)', decrypt with WIFError (length 43 expected, got 0), confirm_code with Error 'Invalid confirmation code', create_new_encrypted_wif with PassphraseError 'Invalid intermediate passphrase'. Behind: decode never gives the bytes of the text alone (unless its value is zero), check_decode neither; an encrypted key that some decrypt accepted is refused by every session and passphrase, with 'Invalid prefix' after one such character and with the length error after several; a WIF and an address accepted for a prefix (at least 1) are refused for this prefix; accepted confirmation codes and intermediate codes are refused by every session.", "quantifier": "all texts, all ASCII strings of characters outside the alphabet of any length, all sessions, passphrases and seeds", "why_tests_cant": "all texts and surroundings", "anchors": ["bip38/libs/base58.py:decode", "bip38/libs/base58.py:check_decode", "bip38/wif.py:decode_wif", "bip38/p2pkh_address.py:P2PKHAddress.decode", "bip38/bip38.py:BIP38.decrypt", "bip38/bip38.py:BIP38.confirm_code", "bip38/bip38.py:BIP38.create_new_encrypted_wif"]}
{"id": "C106", "title": "Texts within texts", "statement": "A text that has something around it (a longer paste, two texts pasted together; or, the other way round, a text whose end or beginning was cut off) is not accepted as well: if an encrypted key is accepted by some session and passphrase, no text that properly contains it is accepted as an encrypted key by any session and passphrase; of the three kinds of codes (encrypted key, intermediate code, confirmation code) one can only be contained in a longer kind. Of two WIFs of one prefix (at least 1) and one type, and of two addresses of one prefix (at least 1), neither contains the other; no text over the alphabet that contains an address with prefix 0 (Bitcoin) is accepted for prefix 0, if the first byte of the hash is at least 5; with something behind it a WIF is refused for its prefix whatever the type. decode and check_decode never give the bytes of a text for another text that contains it (if they are not all zero). But in front of a WIF: as the checksum is not compared, the letter L put in front of any uncompressed WIF with prefix 0x80 (Bitcoin) gives a text that decode_wif accepts as a compressed one, and encrypt then does exactly what it does with the WIF of another private key (the user encrypts a key he has never seen); and this is the only text over the alphabet that contains a Bitcoin WIF and is accepted as one. For every prefix from 30 to 255 there is at most one such letter, given in a table (for Litecoin, 0xb0, the letter T); encrypt takes such a text for the compressed WIF of another key too.", "quantifier": "all texts, whatever characters stand around them, all sessions, passphrases and seeds", "why_tests_cant": "all pairs of texts", "anchors": ["bip38/libs/base58.py:decode", "bip38/libs/base58.py:check_decode", "bip38/wif.py:decode_wif", "bip38/p2pkh_address.py:P2PKHAddress.decode", "bip38/bip38.py:BIP38.decrypt", "bip38/bip38.py:BIP38.confirm_code", "bip38/bip38.py:BIP38.create_new_encrypted_wif"]}
{"id": "C107", "title": "What every accepted text looks like", "statement": "Not only the texts the library writes: every text over the alphabet that decrypt accepts in some session has 58 characters and begins with 6 (6PR or 6PY without EC multiplication; 6Pf, 6Pg, 6Pn, 6Po with the flags of the standard); every intermediate code that create_new_encrypted_wif accepts has 72 characters and begins with 'passphrase'; every confirmation code that confirm_code accepts has 75 characters and begins with cfrm38. So a text with a character missing, or one typed twice, or any other change of the length, is not accepted as the same kind; and decrypt refuses every text over the alphabet that does not have 58 characters or does not begin with 6. Every WIF that decode_wif accepts for a prefix of the coin table has the length and one of the first letters listed for this prefix (Bitcoin: 51 characters and 5, or 52 and K or L), every accepted address as well (prefix 0: 25 to 34 characters, beginning with 1).", "quantifier": "all texts over the alphabet, all sessions, passphrases, seeds and prefixes of the coin table", "why_tests_cant": "all accepted texts", "anchors": ["bip38/libs/base58.py:decode", "bip38/wif.py:decode_wif", "bip38/p2pkh_address.py:P2PKHAddress.decode", "bip38/bip38.py:BIP38.decrypt", "bip38/bip38.py:BIP38.confirm_code", "bip38/bip38.py:BIP38.create_new_encrypted_wif"]}
