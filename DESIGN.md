# A machine-checked model of meherett/python-bip38 in Rocq (Coq 8.16.1)

`properties.jsonl` lists the properties, `MANIFEST.json` maps each to its
theorems, `rocq/` is the development, `seeded/LOG.jsonl` records the wrong
programs the theorems were tested against.  Build: `cd rocq && coq_makefile -f
_CoqProject -o Makefile && make -j4` (about 20 minutes on 4 cores).

## 1. Layout

| File (rocq/theories) | What it is |
|---|---|
| `Py.v` | the fragment of the Python run time that is used: bytes, str (code points), unbounded int, slices, `int.to_bytes`/`from_bytes`, `bytes.fromhex`, `.hex()`, UTF-8 and ASCII encoding, `str`/`repr` of ints and bytes, dict lookup, exceptions as values (`res`) |
| `Prims.v` | record `prims` of the external functions the model is parametric in (SHA-256, optional RIPEMD-160 of hashlib, scrypt, AES block, NFC) and `prims_ok`, the only facts theorems may assume about them |
| `Const.v` `Exceptions.v` `Utils.v` `Base58.v` `Ripemd160.v` `Crypto.v` `Secp256k1.v` `PointFallback.v` `P2PKHAddress.v` `Wif.v` `Bip38.v` `LotText.v` `AnyArgs.v` `AnyFuncs.v` `History.v` `Threads.v` `Worlds.v` `WorldFuncs.v` `Inherit.v` `Copies.v` `BytesFlag.v` `Buffers.v` `Chains.v` `Crossing.v` `Backend.v` `RipemdChecked.v` `Races.v` `Interrupts.v` `Unicode.v` `Python314.v` `DigitLimit.v` `CoinTable.v` `ExampleScripts.v` `FloatLot.v` | **the model**, one file per file of /repo/bip38 (and of /repo/docs/tools and /repo/examples), function by function; every definition cites the lines it models |
| `Cryptocurrencies.v` | the coin table (all classes), generated from the text of cryptocurrencies.py by `tools/gen_cryptocurrencies.py` and committed |
| `UnicodeTables.v` | the decompositions, combining classes and composition exclusions of Unicode 14.0, generated by `tools/gen_unicode.py` |
| `Curve.v` | model of what secp256k1/*.py calls in the `ecdsa` package (a dependency, not /repo) |
| `Spec.v` `SpecCurve.v` `SpecRipemd.v` `SpecBip38.v` `SpecRecords.v` `SpecSession.v` `SpecInterop.v` `SpecReads.v` `SpecOutcome.v` `SpecLetters.v` `SpecReader.v` `SpecUnicode.v` `SpecTable.v` `SpecJson.v` `SpecBackend.v` `SpecLibraries.v` | **the specification**, independent of the model: values of digit strings, Base-L texts, two's complement, the textbook chord-and-tangent law, SEC 1 encodings, the published 32-bit RIPEMD-160, WIF and address texts, the byte layouts of BIP38, conforming records of any implementation, what the lenient Base58 reader reads each text as. `SpecSession.v` alone mentions the model: a "session" is an object returned by the modelled constructor |
| `ErrorFacts` `PyFacts` `UtilsFacts` `Base58Facts` `Primes` `ECGroup` `CurveFacts(2)` `SecpFacts` `RipemdFacts` `CodecFacts(2)` `Bip38Facts(2)` `RecordFacts` `Sessions` `ECFacts` `ReadFacts` `Utf8Facts` `UnicodeFacts(2)` | lemmas |
| `PropBase58` `PropAlphabet` `PropUtils` `PropHash` `PropCurve` `PropCodec` `PropEncrypt` `PropDecrypt` `PropIntermediate` `PropCreate` `PropEC` `PropShape` `PropSession` `PropErrors` `PropMessages` `PropInterop` `PropUnique` `PropExtra` `PropExtra2` `PropHistory` `PropThreads` `PropLotText` `PropArgs` `PropAnyArgs` `PropAnyFuncs` `PropWorlds` `PropRaces` `PropRecreate` `PropOutcome` `PropLetters` `PropDefaults` `PropInterrupts` `PropReader` `PropUnicode` `PropPython314` `PropDigits` `PropKeys` `PropTable` `PropScripts` `PropFloat` `PropPoints` `PropScrypt` `PropRipemd` `PropQueries` `PropInherit` `PropBackend` `PropRipemdChecked` `PropLibraries` `PropCrossing` `PropCopies` `PropBytesFlag` `PropChains` `PropKinds` `PropBuffers` `PropTypo` `PropSpace` `PropNest` `PropInFront` `PropLooks` | **the property theorems** (`Theorem Cnn_...`), each with an `Example Cnn_...` near it, or in `Examples*.v`, that meets its hypotheses |
| `Toy.v` `Examples.v` `Examples2.v` `Examples3.v` `Examples4.v` `Examples5.v` `Examples6.v` `Examples7.v` `Examples8.v` | concrete cases for hypotheses, with toy primitives that satisfy `prims_ok` |
| `Sha256.v` `Aes.v` `Instances.v` | the real SHA-256, HMAC, PBKDF2, scrypt, AES-256; proof that they satisfy `prims_ok` (so no theorem with that hypothesis is vacuous for the real functions); published test vectors |
| `Vectors.v` | the assertions of /repo/tests on tests/data/values.json computed in the model (generated by `tools/gen_vectors.py`; those that need no scalar multiplication: `gen_vectors.py all` writes all of them, which were checked once). Tests of the model's fidelity, not proofs |

## 2. Properties: what is modelled, how it is proved

Technique common to C07-C64: for each method an equation or an exact
characterisation of its result in terms of the specification is proved once
(`*Facts.v`), by running the model symbolically on an arbitrary input; the
theorems follow from those.  No theorem bounds sizes, depths or steps.

| Property | Model | Proof |
|---|---|---|
| C01, C02 Base58 inverse laws | `encode`, `decode` over any alphabet of at least two distinct ASCII letters | induction over digit lists, uniqueness of canonical digit strings |
| C03 Base58Check | `check_encode`, `check_decode`, any SHA-256 | from C01/C02 |
| C04 characters outside the alphabet | `decode` | the code accepts them (digit -1): proved for all texts, with the exact collision |
| C05, C45, C59 integers and bytes | `integer_to_bytes`, `bytes_to_integer`, `bytes_reversal`, both byte orders, signed or not, with or without width | induction over byte lists, mod arithmetic |
| C06, C61 hex and hash helpers | `get_bytes`, `bytes_to_string`, crypto.py | induction |
| C07-C10, C62 WIF | wif.py with exact exception texts | from C01/C02 and the record layout; C10: the checksum is never verified, for all inputs |
| C11, C62, C63 addresses | p2pkh_address.py | from C03 |
| C12-C14 encrypt | `BIP38.encrypt` | characterisation of `encrypt`; C13 isolates exactly when the code fails on a valid key (masked half starts with a zero byte), C12 what happens to keys with a zero first byte |
| C15 text shapes | the four texts | bounds on Base58 values: first characters and lengths |
| C16-C20, C47, C50, C64 decrypt | `BIP38.decrypt` on arbitrary strings | exact outcome on every string (C50), soundness (C16), checksum ignored (C19), NFC (C20) |
| C21-C23, C43, C55 intermediate codes | `intermediate_code` with explicit or random salt | exact outcome; C55 injectivity |
| C24-C30, C42, C51, C54, C56 EC multiplication | `create_new_encrypted_wif`, `confirm_code`, `decrypt` | as above plus the group law (C37) |
| C31, C32, C39, C40, C57 networks, constructor, coin table | constructor, `select_network`, generated table | case analysis; the table by computation lifted with `forallb_forall`; C40: two coins with equal prefixes are indistinguishable |
| C33, C34 RIPEMD-160 | libs/ripemd160.py on unbounded, possibly negative integers | simulation with the 32-bit specification modulo 2^32, induction over blocks |
| C35-C38, C46, C60 secp256k1 | point.py, private_key.py, public_key.py, including the branches for an old ecdsa | Pocklington certificates for p and n, complete projective formulas equal the textbook law, associativity by `ring`/`field`, n*G = O by computation, cofactor 1 by a counting argument |
| C41, C52, C62 exceptions | every raise site with class and text; built-in exceptions by class | case analysis of every path; each listed exception reached by an example |
| C44 error format | exceptions.py `Error.__init__`/`__str__` | computation on arbitrary texts |
| C67 alphabets | `base58.encode`/`decode` with an arbitrary alphabet argument | encode_loop and decode_loop re-analysed under weaker hypotheses; converse by exhibiting the byte string a bad alphabet loses |
| C65, C66 histories | `History.v`: a process with any number of objects and one random source | induction over the history; C54/C55 for coincidences |
| C68 threads | `Threads.v`: programs that choose the next call from the results so far, any schedule, interleaved reads, draws and assignments to `network` | invariant over the schedule with a ghost log of calls in the order they begin (linearisation); C65 for comparing with a fresh process |
| C69 lot and sequence as text | `LotText.v`: `intermediate_code` again, with int(...) of text | grammar of int() texts by induction; the other theorems through C69_numbers |
| C70 bytes or hex text | every function with a `Union[str, bytes]` argument | from the grammar of hex texts (C06) |
| C71 arguments of the wrong type | `AnyArgs.v`: the constructor and the five methods again, every argument a Python value of any type | equality with the typed model on declared types; refusal of a non-text passphrase by a compositional predicate over the monad; case analysis |
| C72 the other functions with arguments of the wrong type | `AnyFuncs.v`: base58, utils, WIF and address functions again, every argument a Python value of any type, keyword arguments a dict; a strict UTF-8 decoder | equality with the typed model on declared types; the decoder is the inverse of the encoder (`Utf8Facts.v`); case analysis |
| C73 changed tables and attributes | `Worlds.v`: a process that puts, changes and deletes entries of the coins' tables and assigns to `network`, `networks` and `cryptocurrency` of its objects between calls | folds over the history give each table's entry and each object's attributes at the time of a call (`entry`, `names`, `network_attr`, ...: independent of the model); induction shows the model keeps these accounts; then C31 and a relation between runs with and without the entry |
| C74 changes while a call runs | `Races.v`: each method as a function of the sequence of views of its object, one for each of its reads | the views amount to one table made of the prefixes found (C31); decoding a WIF with two one-byte prefixes |
| C75 making a decrypted EC-multiplied key again | as C24, C28, C50 | the outcome of decrypt (C50) inverted: a 24-byte seed means that no block lost a zero byte; AES is a bijection on blocks (pigeonhole), so the masked blocks are those of the record |
| C76 exact outcome of encrypt | as C12, C09 | encrypt rewritten to a case distinction on the Base58 bytes (C09), then on the scalar, the passphrase and the two masked halves |
| C77 exact outcome of create_new_encrypted_wif | as C28; SpecOutcome.v states the four blocks by number | the model's xor on numbers against the shortest form of the value; create rewritten to a function of the decoded code |
| C78 exact outcome of intermediate_code | as C21, C22 | from the pieces of C21 and C22, with a lemma that the cases are complete |
| C79 length and first characters | the table in SpecLetters.v, for all prefixes of the coin table | a text of p followed by r bytes lies between p * 256^r and (p + 1) * 256^r - 1: number and first of its base-58 digits from the two ends, computed for each row; prefix 0 by induction-free bounds on the digits left after the zero bytes |
| C80 defaults fixed at import | `WorldFuncs.v`: Worlds.v with the functions of wif.py and P2PKHAddress, whose defaults are evaluated at import | the entry of the table as a fold over the history (C73); WIFs of another prefix by C09 |
| C81 interrupted calls | `Interrupts.v`: histories in which calls are cut short before or after they take random bytes | the interrupted history is simulated by the one without the interrupted calls, with a source that leaves out the lost bytes; induction over the history |
| C82 portable in both directions | `SpecReader.v`: a reader written after the BIP text, as relations, without the model | composition of C14, C24, C28 with the inverses of the AES blocks; uniqueness by injectivity of Base58Check; the converse from C50, C75 and the inversion of confirm_code |
| C83 equivalent passphrases | `Unicode.v`: unicodedata.normalize (decomposition, ordering, composition, Hangul) on the tables of `UnicodeTables.v` | equality of decompositions is the least equivalence generated by the Unicode rules (`SpecUnicode.v`); composition undone by decomposition (invariant of the scan); facts about the finite tables by computation, about texts by induction |
| C84 Python 3.14 and later | `Python314.v`: the functions that use bytes_to_string again, with bytes.fromhex accepting bytes | both models in lockstep, related by "the same, with these bytes shown as bytes"; hexadecimal text characterised as in C09 |
| C85 limit on digits | `DigitLimit.v`: `intermediate_code` of `LotText.v` again, under a limit | case analysis; the length of decimal text against powers of ten by induction |
| C86 tables of coins | `CoinTable.v`: docs/tools/generate_cryptocurrencies_table.py; `SpecTable.v`: a reader of HTML tables | the reader's state after each piece of text, by induction over characters, networks and coins; sorting a permutation and ordered; hexadecimal text by induction |
| C87 example programs, JSON | `ExampleScripts.v`: the six programs in examples/, json.dumps of scalars and flat dictionaries; `SpecJson.v`: a JSON reader (RFC 8259) | reading back by induction over characters, digits and members; the round trips C12, C24, C26 for the programs |
| C88 lot and sequence as floats | `FloatLot.v`: finite floats as m * 2^e, infinities, NaN; truth, int(), str() given | whole parts are unique (integer arithmetic); reduction to C69 |
| C89 calculations with points | expressions over the Point methods of `Secp256k1.v`; specification: the integer an expression stands for | induction on the expression; the group law, order and cofactor 1 (C37, C38) |
| C90 only through scrypt | the operations of `Bip38.v` with any primitives; two passphrases with one derived key | unfolding the operations under equal derived keys |
| C91 passphrases scrypt cannot tell apart | RFC 7914 / RFC 2104: HMAC pads the key with zeros, hashes long keys | equal HMAC keys give equal scrypt; C90; a long passphrase whose digest is text is exhibited |
| C92 RIPEMD-160 listed but not provided | `prims` lets the listed hash raise; `unprovided` says it always does | comparison with the run in which it is not listed, step by step |
| C93 which questions scrypt is asked | `with_scrypt` replaces the hash in the same installation; agreement at the named arguments is the hypothesis | closed forms of the calls for both hashes, compared |
| C94 inherited and shared tables | `Inherit.v`: dicts as numbered objects, classes holding them by reference, attribute lookup along the resolution order; the operations of `Worlds.v` run on the classes as seen | accounts of who holds which dict and of each dict's entries, kept by induction over the history |
| C95 curve packages, python -O | `Backend.v`: bip38.py and p2pkh_address.py once more over any curve package; the package as in `Secp256k1.v` and the same without assertions as instances; `SpecBackend.v`: what SEC 1 asks of a package | each question the methods ask is about a valid key, so its answer is fixed (with C37's group laws for products); then the two models step by step |
| C96 RIPEMD-160 never fails | `RipemdChecked.v`: ripemd160.py with index errors, shifts, struct errors and the assertion | bounds of the tables and slices; equality with `Ripemd160.v`, hence with the specification |
| C97 exchanging libraries | `SpecLibraries.v`: two sets of primitives that answer alike where asked | the two runs step by step; the length of every scrypt result gives the key size |
| C98 errors crossing processes | `Crossing.v`: exceptions as objects (args, attributes, cause), the call's binding of arguments, `__reduce__` and `__setstate__` | the rebuilt object has the four attributes of the original; induction on the number of crossings |
| C99 copies and workers | `Copies.v`: several processes, whose objects hold lists by reference; copying, sending, forking; one source of random bytes | each process is seen as a world of C73 (simulation); invariants: an object's list is its own, or shared |
| C100 python -bb | `BytesFlag.v`: the functions that put bytes into an f-string, with what the interpreter does there as a parameter | the branch in decode_wif is dead; for the other two, cases on the payload read |
| C101 tracebacks | `Chains.v`: the functions that catch an exception or encode text, with the exceptions a traceback shows; a UnicodeEncodeError has its attributes | equal to the model of the other files but for that (induction on the code); then one pass through each function with the set of chains as invariant; the run of characters by cases on the two texts |
| C102 kinds of text | the readers as modelled; `PropKinds.v` | each reader's success fixes the length of the decoded bytes (with the four of the checksum), and the lengths of two kinds never meet; then the exception by the facts about each reader's failures |
| C103 bytearrays | `Buffers.v`: the functions as programs that make, read and write bytearrays, run while others change theirs; equal to the other files for bytes (C103_same) | a program that writes to its own objects only (by construction of each); then each program run against any history of contents |
| C104 misprints | no new model: Base58, Wif, Bip38, P2PKHAddress | the values of a text and its misprint differ by a non-zero multiple of 58^i; equal records are closer than 256^4 (256^5 with a marker byte), and 58^6 > 256^4, 58^7 > 256^5; AES and xor are injective, so equal results mean equal records |
| C105 characters around | no new model: Base58, Wif, Bip38, P2PKHAddress | a character outside the alphabet has the digit -1: in front it makes every running value negative (no bytes, no zero prefix); behind it the value becomes 58^n v - (58^n - 1)/57, so a record that starts with a known number grows by one byte or gets another number |
| C106 texts within texts | no new model: Base58, Wif, Bip38, P2PKHAddress | something around a text of positive value more than doubles the value (or makes it negative, or starts it with a zero byte); the records of one kind lie between a number and its double; what may stand in front of a WIF (`PropInFront.v`): the value with a digit in front either lies among the compressed records or misses them, decided for each of the prefixes 30 ... 255 and each of the 58 letters (all there are) by evaluation |
| C107 looks of accepted texts | no new model; `SpecLetters.v` | a text over the alphabet is the Base58 text of the bytes it is read as (C02); acceptance fixes the leading bytes and the length of these (C09, C18, C21, C26), and with them the number of digits and the first digits (as for C15, C79) |
| C48, C49 interoperability | `decrypt` on records of any conforming implementation (`SpecInterop.v`) | from C50 |
| C53, C58 injectivity, re-encryption | `encrypt`, `decrypt` | from the characterisations |

No property was found inexpressible.  What is not expressible in the model, and
so not claimed: run time and memory, side channels, the secrecy of ciphertexts
(cryptographic hardness), the randomness of `os.urandom`.

Several properties are stated as what the code does although a user would
expect otherwise; `MANIFEST.json` says so in the note of each (C04, C05, C10,
C12, C13, C19, C23, C25, C30, C40, C41, C42, C46, C58, C59, C60, C62, C64, C67, C69, C70, C74).

## 3. Trusted base

- Coq 8.16.1's kernel, including its virtual machine (`vm_compute` is used for
  primality certificates, n*G = O, the coin table, test vectors and examples).
- `Print Assumptions` on every one of the theorems in `MANIFEST.json`:
  **"Closed under the global context"**, i.e. no axioms at all
  (`python3 tools/assumptions.py` regenerates the list).  No
  `Admitted`, no axiom, no section-less Variable or Hypothesis, no functor or
  module type, no kernel check switched off, no plugin beyond those of the
  standard library (`ring`, `field`, `lia` with zify).  A checker that lists the
  constants of all loaded libraries (rather than what theorems depend on) also
  shows Coq's own `ssrunder` interface (`Coq.ssr.ssrunder.Under_rel` and its six
  companions, parameters of a module type in Coq's standard distribution),
  loaded through `ZifyBool`; no theorem here depends on them.
- `Py.v`: that it reads Python correctly.  It is small and its functions are
  exercised by examples.
  `tools/difftest.py SEED N` writes a Coq file that compares them (and those of
  `LotText.v` and `Chains.v`) on random arguments with Python 3.11; the only difference
  met is `(-1).to_bytes(0, ..., signed=True)`, which CPython before 3.13 answers with
  b"" and the model with OverflowError, and which no function of the library asks for.
- `Curve.v`: that it reads `ecdsa` (>= 0.18) correctly: parsing (`from_string`,
  `from_bytes`), the validity check of a public key, `SigningKey.from_string`,
  and that point addition and scalar multiplication compute what the projective
  formulas compute (the package uses Jacobian coordinates with lazily scaled
  results; the model uses the complete formulas of Renes, Costello and Batina,
  and C37 proves these are the chord-and-tangent group).  By C95 the methods of BIP38
  depend on much less: only on what SEC 1 says of valid keys and points.
- `prims_ok` in the theorems that assume it: output lengths of SHA-256,
  RIPEMD-160, scrypt and AES, and AES decryption inverting encryption (and that
  hashlib's RIPEMD-160, if listed, works: C92 treats the other case).
  `Instances.v` proves `prims_ok` for the published functions.  NFC is an
  arbitrary function from str to str, except in C83, which takes `Unicode.nfc`.
- `Crossing.v`, `Copies.v` (C98, C99): that they read pickle and copy correctly
  (`BaseException.__reduce__` and `__setstate__`, `object.__reduce_ex__`, classes
  sent by name, fork copying the whole state).
- `BytesFlag.v` (C100): that under -bb formatting bytes raises and nothing else the
  code does with bytes is affected.
- `Chains.v` (C101): that CPython's ascii and utf-8 encoders report the first character
  they cannot encode and those that follow without a gap, with the whole text as `object`,
  and the form of UnicodeEncodeError's text; that an exception raised in an except clause
  has the one being handled before it. What the ecdsa package raised on the way to its
  MalformedPointError is one element (`Malformed`); the texts of ValueError, TypeError
  and the like are left out; the frames of a traceback (whose local variables do hold the
  passphrase) are not modelled.
- `Buffers.v` (C103): which operations of Python copy a bytearray (slices, +, bytearray(),
  bytes(), lstrip) and which read it once (len, bool, sha256, int.from_bytes); that ecdsa's
  from_string takes a bytearray as the bytes it holds (modelled as one reading); Python 3.11
  to 3.13, where bytes.fromhex takes text only.  memoryview and array are not modelled, nor
  is libs/ripemd160.py called with a bytearray.
- `UnicodeTables.v` (C83 only): the tables of Unicode 14.0 as printed by Python's
  unicodedata (`tools/gen_unicode.py`).  Other Python versions carry other versions
  of Unicode; by the Unicode stability policy they agree on assigned characters.
  That `Unicode.v` computes what CPython does was tested on 6000 random texts.
- The specification files, which are meant to be read.

## 4. What is modelled and what is not

Modelled, in full: const.py, exceptions.py (all classes, constructor, `str`),
utils.py, crypto.py, libs/base58.py, libs/ripemd160.py, p2pkh_address.py,
wif.py, cryptocurrencies.py (table), bip38.py (constructor and the five
methods, with `detail`), secp256k1/point.py, private_key.py, public_key.py (the
methods the package uses, and the `except AttributeError` branches of point.py).

Simplifications, each also stated at its definition:

- Python objects appear as values: BIP38 is a record, methods are functions of
  it.  No method assigns to `self` after the constructor (bip38.py:79, 84);
  `History.v` models a process that makes objects and calls methods in any order,
  sharing one random source, and `Threads.v` several threads doing so at once: a
  method call is there up to three steps (it reads the object, draws random
  bytes, returns), between which other threads may do anything, including
  assigning to `network` of an object.  `Worlds.v` (C73) models one
  thread that also assigns to its other attributes (except `alphabet`, which
  nothing reads) and changes the tables in cryptocurrencies.py, every class having
  a table of its own; `Inherit.v` (C94) adds subclasses that inherit a table, tables
  shared by classes, and assignments of tables.  `Races.v` (C74)
  has other threads do such things between the reads of a method; there a lookup
  `self.cryptocurrency.NETWORKS[network][...]` is one step.
- `Bip38.v` gives arguments the types the signatures declare (text for `str`, bytes
  or text where both are accepted, `None` where allowed).  `LotText.v` (C69) adds
  text for lot and sequence numbers, `FloatLot.v` (C88) floats, and `AnyArgs.v` (C71) models the constructor and
  the five methods with arguments of any type (except float, bytearray and
  subclasses of str and bytes), and `AnyFuncs.v` (C72) the Base58, integer, WIF and
  address functions.  The classes of secp256k1/ take the declared types only.
- bytes.fromhex refuses bytes, as in Python 3.9 to 3.13; 3.14 accepts ASCII bytes,
  which changes `bytes_to_string` on such bytes: `Python314.v` (C84).
- Built-in exceptions carry their class only; library exceptions their class and
  exact text.  The order in which a failing call evaluates its arguments is kept.
- Random bytes (`os.urandom`) are an explicit argument of the model, used exactly
  when the code draws them (C43).
- scrypt and AES are total functions; MemoryError and the limits of the C
  libraries are not modelled.  Python's limit on conversions between int and text
  (4300 digits, Python 3.11 and later), which only a lot or sequence argument can
  reach, is modelled in `DigitLimit.v` (C85) and nowhere else.
- Recursion and loops are structural or fuelled; where fuel is used a lemma shows
  it never runs out (`fuel_ok`, `bytes_loop_spec`, `to_bytes` widths).
- Not modelled: `info.py`, `__init__.py` re-exports, setup.py, docs (except docs/tools, C86),
  tests; `__repr__`-like conveniences not reached from the public API.
