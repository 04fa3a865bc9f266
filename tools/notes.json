{
 "C04": "Characterises the code: characters outside the alphabet are not rejected (they count as digit -1), so several texts decode alike; a user would expect rejection.",
 "C05": "Includes the finding that without a width leading zero bytes are lost, with the exact round-trip condition.",
 "C08": "Includes that a missing key (None) is a TypeError rather than a library error.",
 "C10": "Characterises the code: decode_wif returns the checksum but nobody verifies it, so damaged WIFs are accepted.",
 "C12": "Round trip for keys with a non-zero first byte; keys with a zero first byte are proved not to decrypt to their WIF (finding).",
 "C13": "Exact condition under which encrypt fails with ValueError on a valid key (finding: integer_to_bytes drops leading zero bytes of a masked half).",
 "C19": "Characterises the code: decrypt never verifies the checksum of the encrypted key.",
 "C23": "Finding: sequence 0 (a documented value) is silently treated as no lot and sequence.",
 "C25": "Finding: exact conditions under which created keys cannot be decrypted, because leading zero bytes are dropped.",
 "C30": "Finding: seeds of any length are accepted; only some of them can be decrypted.",
 "C40": "Characterises the code: the ALPHABET of a coin is stored and never used.",
 "C41": "Exact list of exception classes that escape from each method, each reached by an example; some are built-in ones.",
 "C42": "Characterises the code: unknown flag bits are accepted in EC mode.",
 "C46": "Includes the finding that Point.from_bytes accepts raw points off the curve.",
 "C57": "For all networks of the coin table (table), and for any prefixes of equal length.",
 "C58": "Includes the finding that a decrypted foreign key may not be encryptable again.",
 "C59": "Includes the finding that without a width signed conversion overflows for most negative and half of the positive integers.",
 "C60": "The branches for an old ecdsa: writing agrees, reading of compressed points is wrong (finding).",
 "C62": "Exact exception classes, each reached; an unknown network is a KeyError here (finding).",
 "C64": "Characterises the code: decrypt accepts texts that are not Base58.",
 "C65": "The model threads the objects and the random source of a process through a history of calls (History.v); methods do not assign to self.",
 "C66": "See C65.",
 "C67": "Non-termination: C67_one_letter_endless says that for every bound on the number of iterations the digit loop is still running after it.",
 "C68": "Granularity: a call reads its object in one step, draws random bytes in one step and returns in one step; os.urandom hands out consecutive pieces of one stream.",
 "C69": "LotText.v models intermediate_code with text for lot and sequence; C69_numbers ties it to the model used elsewhere. Texts with non-ASCII digits are rewritten by an arbitrary function.",
 "C70": "A seed of white space only silently makes a fixed key: proved as what the code does.",
 "C71": "AnyArgs.v models the same lines as Bip38.v with arguments of any type; C71_init, C71_intermediate, C71_encrypt, C71_create, C71_confirm, C71_decrypt tie it to the model used elsewhere. float, bytearray and subclasses of str are not modelled.",
 "C72": "AnyFuncs.v models the same lines as Base58.v, Utils.v, Wif.v and P2PKHAddress.v with arguments of any type; C72_base58, C72_integers, C72_wif, C72_address tie it to the model used elsewhere. float, bytearray, lists of ints and instances of coin classes are not modelled.",
 "C73": "Worlds.v adds to History.v the statements that change a class's NETWORKS and an object's network, networks and cryptocurrency; C73_unchanged shows that without them it is History.v. Tables shared by several classes, and values that are not dicts of two ints, are not modelled.",
 "C74": "The result of decrypt can mix two states of the table (C74_torn): proved as what the code does. Races.v repeats encrypt and decrypt of Bip38.v with one view of the object per read; C74_undisturbed shows that with equal views they are those of Bip38.v.",
 "C75": "The flag byte must be one of the four this library writes; other flags decrypt (C42) and come back as one of the four.",
 "C76": "C76_outcome is the complete case distinction; the errors for a wrong network are C31 and C71.",
 "C77": "The errors for other codes, WIF types and scalars are C28 and C29; seeds given as text are C70.",
 "C78": "C78_cases_complete (a lemma) shows that the cases of C78_outcome cover every call; lot and sequence as text are C69, other types C71.",
 "C79": "The table is SpecLetters.v, written by tools/gen_letters.py and checked by Coq; the lengths of encrypted keys and codes are C15.",
 "C80": "WorldFuncs.v puts the functions of wif.py and P2PKHAddress into the processes of Worlds.v; assignments to P2PKHAddress.alphabet are not modelled.",
 "C81": "Interrupts.v extends the histories of C65 and C66 by calls that are cut short before or after their use of os.urandom; that a method writes nothing but local variables is a reading of bip38.py, stated there.",
 "C82": "SpecReader.v is the strict reader, as relations; C82_specifications_* show that it is the inverse of the writers of SpecRecords.v and SpecInterop.v. Texts without a correct checksum, which decrypt accepts, are C16 and C50.",
 "C83": "unicodedata is external code: Unicode.v models normalize('NFC', ...) with the tables of Unicode 14.0 (tools/gen_unicode.py); SpecUnicode.v defines canonical equivalence and composed texts from the same tables, without the algorithm.",
 "C84": "Python314.v models the functions that use bytes_to_string a second time, with bytes.fromhex accepting bytes; setup.py admits these versions (python_requires >=3.9,<4).",
 "C85": "DigitLimit.v models intermediate_code a further time, with int(...) and the f-strings under a limit; how text outside ASCII is rewritten is left arbitrary, as in C69.",
 "C86": "CoinTable.v models the script; SpecTable.v reads tables. The classes are an argument; C86_met shows that the 155 classes of the module meet the hypotheses. Writing the two files is not modelled.",
 "C87": "ExampleScripts.v models the six programs in examples/ and json.dumps for the values the library returns; SpecJson.v reads JSON. Under Python 3.14 a value shown as bytes (C84) would make json.dumps raise TypeError; this is not modelled.",
 "C89": "The expressions and their evaluation (run) only compose the modelled Point, PublicKey and PrivateKey methods; __radd__ and __rmul__ are the same functions. Points read from bytes that are off the curve (C46) are excluded by the hypotheses; arithmetic on them is not specified by the ecdsa package.",
 "C90": "Holds for every choice of primitives (prims_ok), in particular every scrypt.",
 "C91": "scrypt is the published one: any ROMix in place of its middle part, PBKDF2-HMAC-SHA256 with the Sha256.v of this development.",
 "C92": "The comparison is with the same Python without ripemd160 in hashlib.algorithms_available (without_ripemd, C34).",
 "C93": "Whether the real code evaluates scrypt without using the value cannot be seen in the model; the claim is about what the outcome depends on.",
 "C94": "Classes that see no table at all, del class.NETWORKS and assignments to ALPHABET are not modelled.",
 "C95": "A package is given by what the methods of PrivateKey, PublicKey and Point return with it; C95_packages shows some that qualify. C95_confirm_code takes prims_ok (the lengths of the parts of the point in the code come from AES and scrypt).",
 "C98": "The class is found again by its name (module-level classes). What pickle, str and repr do to the arguments is a parameter; travels asks of an argument that it arrives with the same str, repr and truth value, and laws says this of None and text.",
 "C99": "Every class has a table of its own, as in C73; a class that pickle cannot find by name is not modelled. os.urandom of all processes is one stream of bytes.",
 "C100": "decode_wif, the WIF functions, encrypt, confirm_code and P2PKHAddress.decode with the exception that showing bytes raises as a parameter; equal to the model without the flag except for foreign prefixes. That the other methods show no bytes is read off the source, not proved.",
 "C101": "The methods of BIP38, decode_wif and the WIF functions; P2PKHAddress.decode only in C101_same. Chains of the ecdsa package are one element; the local variables of frames are not modelled.",
 "C102": "Prefixes are numbers of one or two bytes, as in the coin table; of the readers of wif.py, decode_wif and, through encrypt, what uses it.",
 "C103": "Changes during a call are treated for encode, check_encode, bytes_reverse, bytes_to_integer, decode, check_decode, intermediate_code and create_new_encrypted_wif; that nothing is written, for all functions. memoryview and libs/ripemd160.py called with a bytearray are not modelled.",
 "C104": "For EC-multiplied keys only the records are shown to differ: two different records could hold the same key. Restricted to misprints of texts over the Base58 alphabet (the misprint may contain any character).",
 "C105": "Only ASCII characters: others raise ValueError where the text is encoded (other properties). Prefix 0 is left out behind an address and a WIF: the leading zero bytes are counted separately from the value there; Examples9.v shows a text of value zero whose last character is lost.",
 "C106": "A WIF of one type within a WIF of the other is characterised for the prefixes 30 to 255 (C106_wif_in_front; C106_wif_only_L for Bitcoin); for other prefixes only what stands behind is excluded. Prefix 0 is left out for WIFs; for addresses with prefix 0 whose hash starts with a byte below 5 only the checksum could tell, so nothing is claimed but that the bytes differ.",
 "C107": "Texts over the alphabet only: with other characters (digits of -1) there are accepted texts of other forms. With EC multiplication any flag byte is accepted (C49), so the second letter is not always P."
}