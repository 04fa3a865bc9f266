{
 "claims": [
  {
   "property": "C01",
   "status": "proved",
   "theorems": [
    "C01_decode_encode",
    "C01_encode_is_base_text",
    "C01_alphabets"
   ],
   "note": "Base58 decode inverts encode"
  },
  {
   "property": "C02",
   "status": "proved",
   "theorems": [
    "C02_encode_decode",
    "C02_decode_injective",
    "C02_encode_over_alphabet"
   ],
   "note": "Base58 encode inverts decode on well-formed strings"
  },
  {
   "property": "C03",
   "status": "proved",
   "theorems": [
    "C03_check_roundtrip",
    "C03_check_decode_exact",
    "C03_check_decode_iff",
    "C03_check_decode_otherwise"
   ],
   "note": "Base58Check acceptance is exact"
  },
  {
   "property": "C04",
   "status": "proved",
   "theorems": [
    "C04_decode_exact",
    "C04_reading_own_text",
    "C04_ascii_never_rejected",
    "C04_non_ascii_rejected",
    "C04_invalid_character_borrows",
    "C04_several_texts"
   ],
   "note": "Characterises the code: characters outside the alphabet are not rejected (they count as digit -1), so several texts decode alike; a user would expect rejection."
  },
  {
   "property": "C05",
   "status": "proved",
   "theorems": [
    "C05_bytes_to_integer",
    "C05_with_width",
    "C05_other_widths",
    "C05_without_width",
    "C05_leading_zeros_dropped",
    "C05_roundtrip_iff"
   ],
   "note": "Includes the finding that without a width leading zero bytes are lost, with the exact round-trip condition."
  },
  {
   "property": "C06",
   "status": "proved",
   "theorems": [
    "C06_text_bytes",
    "C06_not_encodable",
    "C06_bytes_to_string",
    "C06_roundtrip",
    "C06_hex_string_kept",
    "C06_not_hex",
    "C06_other_string",
    "C06_false_data",
    "C06_bytes_kept",
    "C06_foreign_data"
   ],
   "note": "Hex conversion"
  },
  {
   "property": "C07",
   "status": "proved",
   "theorems": [
    "C07_wif_roundtrip",
    "C07_wif_injective",
    "C07_encode_wif"
   ],
   "note": "WIF round trip"
  },
  {
   "property": "C08",
   "status": "proved",
   "theorems": [
    "C08_key_length",
    "C08_private_key_to_wif_length",
    "C08_wif_type",
    "C08_not_hex",
    "C08_none"
   ],
   "note": "Includes that a missing key (None) is a TypeError rather than a library error."
  },
  {
   "property": "C09",
   "status": "proved",
   "theorems": [
    "C09_decode_wif_exact",
    "C09_decode_wif_otherwise",
    "C09_other_prefix"
   ],
   "note": "WIF decoding acceptance is exact"
  },
  {
   "property": "C10",
   "status": "proved",
   "theorems": [
    "C10_any_checksum",
    "C10_wif_to_private_key_any_checksum",
    "C10_encrypt_any_checksum",
    "C10_wrong_checksum_accepted"
   ],
   "note": "Characterises the code: decode_wif returns the checksum but nobody verifies it, so damaged WIFs are accepted."
  },
  {
   "property": "C11",
   "status": "proved",
   "theorems": [
    "C11_encode",
    "C11_roundtrip",
    "C11_decode_exact",
    "C11_decode_otherwise"
   ],
   "note": "P2PKH address round trip and rejection"
  },
  {
   "property": "C12",
   "status": "proved",
   "theorems": [
    "C12_roundtrip",
    "C12_zero_first_byte_lost",
    "C12_which_numbers"
   ],
   "note": "Round trip for keys with a non-zero first byte; keys with a zero first byte are proved not to decrypt to their WIF (finding)."
  },
  {
   "property": "C13",
   "status": "proved",
   "theorems": [
    "C13_encrypt_succeeds_iff",
    "C13_invalid_key",
    "C13_passphrase_not_encodable"
   ],
   "note": "Exact condition under which encrypt fails with ValueError on a valid key (finding: integer_to_bytes drops leading zero bytes of a masked half)."
  },
  {
   "property": "C14",
   "status": "proved",
   "theorems": [
    "C14_encrypt_is_record",
    "C14_encrypt_wif"
   ],
   "note": "encrypt output is the BIP38 record"
  },
  {
   "property": "C15",
   "status": "proved",
   "theorems": [
    "C15_encrypt",
    "C15_create",
    "C15_create_any",
    "C15_intermediate"
   ],
   "note": "Encrypted key and code text shape"
  },
  {
   "property": "C16",
   "status": "proved",
   "theorems": [
    "C16_decrypt_sound",
    "C16_decrypt_sound_wif",
    "C16_decrypt_sound_mode"
   ],
   "note": "decrypt never returns a key that does not match the embedded address hash"
  },
  {
   "property": "C17",
   "status": "proved",
   "theorems": [
    "C17_decrypt_detail",
    "C17_confirm_detail"
   ],
   "note": "detail flag does not change the outcome"
  },
  {
   "property": "C18",
   "status": "proved",
   "theorems": [
    "C18_wrong_length",
    "C18_wrong_prefix",
    "C18_wrong_flag",
    "C18_ascii_decodes",
    "C18_not_ascii"
   ],
   "note": "decrypt input validation"
  },
  {
   "property": "C19",
   "status": "proved",
   "theorems": [
    "C19_any_checksum",
    "C19_damaged_key_accepted"
   ],
   "note": "Characterises the code: decrypt never verifies the checksum of the encrypted key."
  },
  {
   "property": "C20",
   "status": "proved",
   "theorems": [
    "C20_normal_form"
   ],
   "note": "Unicode-equivalent passphrases are interchangeable"
  },
  {
   "property": "C21",
   "status": "proved",
   "theorems": [
    "C21_lot_code",
    "C21_plain_code",
    "C21_lot_outcome",
    "C21_plain_outcome"
   ],
   "note": "intermediate_code output"
  },
  {
   "property": "C22",
   "status": "proved",
   "theorems": [
    "C22_salt_length",
    "C22_short_salt_needs_both",
    "C22_one_missing",
    "C22_lot_range",
    "C22_sequence_range",
    "C22_not_hex"
   ],
   "note": "intermediate_code argument validation"
  },
  {
   "property": "C23",
   "status": "proved",
   "theorems": [
    "C23_zero_dropped",
    "C23_short_salt_useless"
   ],
   "note": "Finding: sequence 0 (a documented value) is silently treated as no lot and sequence."
  },
  {
   "property": "C24",
   "status": "proved",
   "theorems": [
    "C24_roundtrip_lot",
    "C24_roundtrip_plain",
    "C24_key_exists"
   ],
   "note": "EC-multiply round trip"
  },
  {
   "property": "C25",
   "status": "proved",
   "theorems": [
    "C25_zero_key",
    "C25_seed_lost"
   ],
   "note": "Finding: exact conditions under which created keys cannot be decrypted, because leading zero bytes are dropped."
  },
  {
   "property": "C26",
   "status": "proved",
   "theorems": [
    "C26_confirm_roundtrip",
    "C26_confirm_lot",
    "C26_confirm_plain"
   ],
   "note": "Confirmation code round trip"
  },
  {
   "property": "C27",
   "status": "proved",
   "theorems": [
    "C27_confirm_sound",
    "C27_not_base58check",
    "C27_wrong_length",
    "C27_wrong_prefix"
   ],
   "note": "confirm_code soundness"
  },
  {
   "property": "C28",
   "status": "proved",
   "theorems": [
    "C28_output",
    "C28_records",
    "C28_succeeds_iff"
   ],
   "note": "create_new_encrypted_wif output consistency"
  },
  {
   "property": "C29",
   "status": "proved",
   "theorems": [
    "C29_not_base58check",
    "C29_wrong_length",
    "C29_wrong_wif_type",
    "C29_wrong_magic",
    "C29_bad_point",
    "C29_bad_seed_hash",
    "C29_seed_not_hex"
   ],
   "note": "create_new_encrypted_wif input validation"
  },
  {
   "property": "C30",
   "status": "proved",
   "theorems": [
    "C30_short_seed_roundtrip",
    "C30_long_seed_lost",
    "C30_long_seed_rejected",
    "C30_short_seed_accepted"
   ],
   "note": "Finding: seeds of any length are accepted; only some of them can be decrypted."
  },
  {
   "property": "C31",
   "status": "proved",
   "theorems": [
    "C31_unknown_network",
    "C31_default_network",
    "C31_only_prefixes",
    "C31_only_address_prefix"
   ],
   "note": "Network selection"
  },
  {
   "property": "C32",
   "status": "proved",
   "theorems": [
    "C32_constructor",
    "C32_rejects"
   ],
   "note": "Constructor validation"
  },
  {
   "property": "C33",
   "status": "proved",
   "theorems": [
    "C33_is_ripemd160",
    "C33_twenty_bytes",
    "C33_too_long"
   ],
   "note": "Fallback RIPEMD-160 is RIPEMD-160"
  },
  {
   "property": "C34",
   "status": "proved",
   "theorems": [
    "C34_independent_of_hashlib",
    "C34_digest"
   ],
   "note": "Results do not depend on whether hashlib offers RIPEMD-160"
  },
  {
   "property": "C35",
   "status": "proved",
   "theorems": [
    "C35_private_key_accepted",
    "C35_private_key_otherwise",
    "C35_private_key_raw"
   ],
   "note": "Private key acceptance"
  },
  {
   "property": "C36",
   "status": "proved",
   "theorems": [
    "C36_serialise",
    "C36_raw_type",
    "C36_parse",
    "C36_parse_otherwise",
    "C36_unambiguous",
    "C36_from_point",
    "C36_from_point_otherwise"
   ],
   "note": "Public key serialisation"
  },
  {
   "property": "C37",
   "status": "proved",
   "theorems": [
    "C37_public_key",
    "C37_addition",
    "C37_group",
    "C37_multiplication",
    "C37_action",
    "C37_injective"
   ],
   "note": "Key derivation is a group action"
  },
  {
   "property": "C38",
   "status": "proved",
   "theorems": [
    "C38_prime_order",
    "C38_multiples_are_points",
    "C38_multiply_injective"
   ],
   "note": "Every valid intermediate point can be multiplied"
  },
  {
   "property": "C39",
   "status": "proved",
   "theorems": [
    "C39_table",
    "C39_coin_ok",
    "C39_sessions",
    "C39_wif_length",
    "C39_address_prefix_bytes"
   ],
   "note": "Coin table is well formed"
  },
  {
   "property": "C40",
   "status": "proved",
   "theorems": [
    "C40_alphabet_ignored",
    "C40_ripple_decrypt",
    "C40_ripple_create"
   ],
   "note": "Characterises the code: the ALPHABET of a coin is stored and never used."
  },
  {
   "property": "C41",
   "status": "proved",
   "theorems": [
    "C41_intermediate_code",
    "C41_encrypt",
    "C41_create_new_encrypted_wif",
    "C41_confirm_code",
    "C41_decrypt",
    "C41_decrypt_value_error_ec_only",
    "C41_decrypt_value_error_iff",
    "C41_intermediate_code_reached",
    "C41_encrypt_reached",
    "C41_create_reached",
    "C41_confirm_reached",
    "C41_decrypt_reached"
   ],
   "note": "Exact list of exception classes that escape from each method, each reached by an example; some are built-in ones."
  },
  {
   "property": "C42",
   "status": "proved",
   "theorems": [
    "C42_every_flag",
    "C42_decrypt_flag",
    "C42_confirm_flag"
   ],
   "note": "Characterises the code: unknown flag bits are accepted in EC mode."
  },
  {
   "property": "C43",
   "status": "proved",
   "theorems": [
    "C43_seed_reported",
    "C43_create_random",
    "C43_create_explicit",
    "C43_intermediate_random",
    "C43_intermediate_explicit"
   ],
   "note": "Random inputs are used in full"
  },
  {
   "property": "C44",
   "status": "proved",
   "theorems": [
    "C44_text",
    "C44_message_only"
   ],
   "note": "Error message format"
  },
  {
   "property": "C45",
   "status": "proved",
   "theorems": [
    "C45_involution",
    "C45_byte_orders",
    "C45_order_exchange",
    "C45_positions"
   ],
   "note": "Byte reversal"
  },
  {
   "property": "C46",
   "status": "proved",
   "theorems": [
    "C46_roundtrip",
    "C46_from_coordinates",
    "C46_off_curve_accepted",
    "C46_closed"
   ],
   "note": "Includes the finding that Point.from_bytes accepts raw points off the curve."
  },
  {
   "property": "C47",
   "status": "proved",
   "theorems": [
    "C47_other_network",
    "C47_same_address_prefix",
    "C47_addresses_differ"
   ],
   "note": "Decryption on another network"
  },
  {
   "property": "C48",
   "status": "proved",
   "theorems": [
    "C48_conforming_key"
   ],
   "note": "Keys made by other software decrypt"
  },
  {
   "property": "C49",
   "status": "proved",
   "theorems": [
    "C49_conforming_key"
   ],
   "note": "EC-multiplied keys made by other software decrypt"
  },
  {
   "property": "C50",
   "status": "proved",
   "theorems": [
    "C50_plain_outcome",
    "C50_ec_outcome",
    "C50_not_encodable"
   ],
   "note": "Outcome of decrypt on every record"
  },
  {
   "property": "C51",
   "status": "proved",
   "theorems": [
    "C51_outcome",
    "C51_not_encodable",
    "C51_conforming_code"
   ],
   "note": "Outcome of confirm_code on every code"
  },
  {
   "property": "C52",
   "status": "proved",
   "theorems": [
    "C52_decrypt",
    "C52_confirm_code",
    "C52_encrypt",
    "C52_create",
    "C52_intermediate_code"
   ],
   "note": "Error texts reveal no secret"
  },
  {
   "property": "C53",
   "status": "proved",
   "theorems": [
    "C53_plain_injective",
    "C53_encrypt_injective"
   ],
   "note": "An encrypted key determines the private key"
  },
  {
   "property": "C54",
   "status": "proved",
   "theorems": [
    "C54_seed_injective"
   ],
   "note": "Different seeds give different encrypted keys"
  },
  {
   "property": "C55",
   "status": "proved",
   "theorems": [
    "C55_code_determines",
    "C55_lot_injective",
    "C55_plain_injective",
    "C55_kinds_differ"
   ],
   "note": "An intermediate code determines lot, sequence and salt"
  },
  {
   "property": "C56",
   "status": "proved",
   "theorems": [
    "C56_same_key"
   ],
   "note": "One seed, one key"
  },
  {
   "property": "C57",
   "status": "proved",
   "theorems": [
    "C57_table",
    "C57_other_network"
   ],
   "note": "For all networks of the coin table (table), and for any prefixes of equal length."
  },
  {
   "property": "C58",
   "status": "proved",
   "theorems": [
    "C58_encrypt_decrypted",
    "C58_conforming_reproduced"
   ],
   "note": "Includes the finding that a decrypted foreign key may not be encryptable again."
  },
  {
   "property": "C59",
   "status": "proved",
   "theorems": [
    "C59_read_signed",
    "C59_read_empty",
    "C59_signed_roundtrip",
    "C59_signed_width",
    "C59_signed_no_width"
   ],
   "note": "Includes the finding that without a width signed conversion overflows for most negative and half of the positive integers."
  },
  {
   "property": "C60",
   "status": "proved",
   "theorems": [
    "C60_same_bytes",
    "C60_raw_read",
    "C60_compressed_misread"
   ],
   "note": "The branches for an old ecdsa: writing agrees, reading of compressed points is wrong (finding)."
  },
  {
   "property": "C61",
   "status": "proved",
   "theorems": [
    "C61_hashes",
    "C61_false_data",
    "C61_foreign_data",
    "C61_not_hex"
   ],
   "note": "The hash helpers take bytes or hexadecimal text"
  },
  {
   "property": "C62",
   "status": "proved",
   "theorems": [
    "C62_encode_wif",
    "C62_private_key_to_wif",
    "C62_decode_wif",
    "C62_from_wif",
    "C62_address_encode",
    "C62_address_decode",
    "C62_unknown_network",
    "C62_reached"
   ],
   "note": "Exact exception classes, each reached; an unknown network is a KeyError here (finding)."
  },
  {
   "property": "C63",
   "status": "proved",
   "theorems": [
    "C63_other_prefix"
   ],
   "note": "Addresses of another network are refused"
  },
  {
   "property": "C64",
   "status": "proved",
   "theorems": [
    "C64_outside_alphabet",
    "C64_encrypted"
   ],
   "note": "Characterises the code: decrypt accepts texts that are not Base58."
  },
  {
   "property": "C65",
   "status": "proved",
   "theorems": [
    "C65_alone",
    "C65_classmethod",
    "C65_deterministic"
   ],
   "note": "The model threads the objects and the random source of a process through a history of calls (History.v); methods do not assign to self."
  },
  {
   "property": "C66",
   "status": "proved",
   "theorems": [
    "C66_each_byte_once",
    "C66_used",
    "C66_codes_repeat",
    "C66_new_keys_repeat"
   ],
   "note": "See C65."
  },
  {
   "property": "C67",
   "status": "proved",
   "theorems": [
    "C67_encode_any_alphabet",
    "C67_decode_any_ascii_alphabet",
    "C67_empty_alphabet",
    "C67_one_letter_zeros",
    "C67_one_letter_endless",
    "C67_round_trip_exactly"
   ],
   "note": "Non-termination: C67_one_letter_endless says that for every bound on the number of iterations the digit loop is still running after it."
  },
  {
   "property": "C68",
   "status": "proved",
   "theorems": [
    "C68_linearizable",
    "C68_alone",
    "C68_deterministic",
    "C68_assigned_network",
    "C68_given_network"
   ],
   "note": "Granularity: a call reads its object in one step, draws random bytes in one step and returns in one step; os.urandom hands out consecutive pieces of one stream."
  },
  {
   "property": "C69",
   "status": "proved",
   "theorems": [
    "C69_numbers",
    "C69_lot_code",
    "C69_lot_outcome",
    "C69_text_or_integer",
    "C69_zero_sequence",
    "C69_lot_range",
    "C69_sequence_range",
    "C69_not_a_number",
    "C69_one_missing",
    "C69_roundtrip"
   ],
   "note": "LotText.v models intermediate_code with text for lot and sequence; C69_numbers ties it to the model used elsewhere. Texts with non-ASCII digits are rewritten by an arbitrary function."
  },
  {
   "property": "C70",
   "status": "proved",
   "theorems": [
    "C70_private_key",
    "C70_private_key_length",
    "C70_public_key",
    "C70_salt",
    "C70_seed",
    "C70_blank_salt",
    "C70_blank_seed"
   ],
   "note": "A seed of white space only silently makes a fixed key: proved as what the code does."
  },
  {
   "property": "C71",
   "status": "proved",
   "theorems": [
    "C71_init",
    "C71_intermediate",
    "C71_encrypt",
    "C71_create",
    "C71_confirm",
    "C71_decrypt",
    "C71_network_type",
    "C71_init_type",
    "C71_network_blank",
    "C71_text_type",
    "C71_seed_type",
    "C71_salt_type",
    "C71_detail",
    "C71_passphrase_type",
    "C71_wif_type",
    "C71_lot_type",
    "C71_success"
   ],
   "note": "AnyArgs.v models the same lines as Bip38.v with arguments of any type; C71_init, C71_intermediate, C71_encrypt, C71_create, C71_confirm, C71_decrypt tie it to the model used elsewhere. float, bytearray and subclasses of str are not modelled."
  },
  {
   "property": "C72",
   "status": "proved",
   "theorems": [
    "C72_base58",
    "C72_integers",
    "C72_wif",
    "C72_address",
    "C72_text_type",
    "C72_bytes_type",
    "C72_ensure_string",
    "C72_reverse",
    "C72_integer_type",
    "C72_bool",
    "C72_prefix_type",
    "C72_network_key",
    "C72_coin_type",
    "C72_wif_type",
    "C72_keywords",
    "C72_unknown_keyword",
    "C72_keyword_order",
    "C72_key_type",
    "C72_alphabet_type",
    "C72_success",
    "C72_success_coin",
    "C72_success_address"
   ],
   "note": "AnyFuncs.v models the same lines as Base58.v, Utils.v, Wif.v and P2PKHAddress.v with arguments of any type; C72_base58, C72_integers, C72_wif, C72_address tie it to the model used elsewhere. float, bytearray, lists of ints and instances of coin classes are not modelled."
  },
  {
   "property": "C73",
   "status": "proved",
   "theorems": [
    "C73_constructor",
    "C73_refused",
    "C73_used",
    "C73_missing",
    "C73_unmade",
    "C73_statement",
    "C73_intermediate",
    "C73_isolation",
    "C73_each_byte_once",
    "C73_unchanged"
   ],
   "note": "Worlds.v adds to History.v the statements that change a class's NETWORKS and an object's network, networks and cryptocurrency; C73_unchanged shows that without them it is History.v. Tables shared by several classes, and values that are not dicts of two ints, are not modelled."
  },
  {
   "property": "C74",
   "status": "proved",
   "theorems": [
    "C74_undisturbed",
    "C74_refused",
    "C74_create",
    "C74_confirm",
    "C74_decrypt",
    "C74_decrypt_sound",
    "C74_encrypt",
    "C74_entries",
    "C74_torn"
   ],
   "note": "The result of decrypt can mix two states of the table (C74_torn): proved as what the code does. Races.v repeats encrypt and decrypt of Bip38.v with one view of the object per read; C74_undisturbed shows that with equal views they are those of Bip38.v."
  },
  {
   "property": "C75",
   "status": "proved",
   "theorems": [
    "C75_made_again",
    "C75_code_with_lot",
    "C75_code_without_lot"
   ],
   "note": "The flag byte must be one of the four this library writes; other flags decrypt (C42) and come back as one of the four."
  },
  {
   "property": "C76",
   "status": "proved",
   "theorems": [
    "C76_outcome",
    "C76_payload_unique",
    "C76_canonical"
   ],
   "note": "C76_outcome is the complete case distinction; the errors for a wrong network are C31 and C71."
  },
  {
   "property": "C77",
   "status": "proved",
   "theorems": [
    "C77_outcome"
   ],
   "note": "The errors for other codes, WIF types and scalars are C28 and C29; seeds given as text are C70."
  },
  {
   "property": "C78",
   "status": "proved",
   "theorems": [
    "C78_outcome"
   ],
   "note": "C78_cases_complete (a lemma) shows that the cases of C78_outcome cover every call; lot and sequence as text are C69, other types C71."
  },
  {
   "property": "C79",
   "status": "proved",
   "theorems": [
    "C79_tables_cover",
    "C79_wif",
    "C79_address",
    "C79_decrypt",
    "C79_create"
   ],
   "note": "The table is SpecLetters.v, written by tools/gen_letters.py and checked by Coq; the lengths of encrypted keys and codes are C15."
  },
  {
   "property": "C80",
   "status": "proved",
   "theorems": [
    "C80_import",
    "C80_fixed",
    "C80_current",
    "C80_gone",
    "C80_agree",
    "C80_disagree",
    "C80_frame"
   ],
   "note": "WorldFuncs.v puts the functions of wif.py and P2PKHAddress into the processes of Worlds.v; assignments to P2PKHAddress.alphabet are not modelled."
  },
  {
   "property": "C81",
   "status": "proved",
   "theorems": [
    "C81_no_trace",
    "C81_deterministic",
    "C81_each_byte_once",
    "C81_taken"
   ],
   "note": "Interrupts.v extends the histories of C65 and C66 by calls that are cut short before or after their use of os.urandom; that a method writes nothing but local variables is a reading of bip38.py, stated there."
  },
  {
   "property": "C82",
   "status": "proved",
   "theorems": [
    "C82_specifications_plain",
    "C82_specifications_ec",
    "C82_encrypt",
    "C82_create",
    "C82_odd_seed",
    "C82_specifications_confirmation",
    "C82_confirmation",
    "C82_decrypt_plain",
    "C82_decrypt_ec",
    "C82_confirm_code"
   ],
   "note": "SpecReader.v is the strict reader, as relations; C82_specifications_* show that it is the inverse of the writers of SpecRecords.v and SpecInterop.v. Texts without a correct checksum, which decrypt accepts, are C16 and C50."
  },
  {
   "property": "C83",
   "status": "proved",
   "theorems": [
    "C83_equivalent",
    "C83_only",
    "C83_normal_form",
    "C83_encodable",
    "C83_plain_text"
   ],
   "note": "unicodedata is external code: Unicode.v models normalize('NFC', ...) with the tables of Unicode 14.0 (tools/gen_unicode.py); SpecUnicode.v defines canonical equivalence and composed texts from the same tables, without the algorithm."
  },
  {
   "property": "C84",
   "status": "proved",
   "theorems": [
    "C84_bytes_to_string",
    "C84_read_back",
    "C84_wif",
    "C84_encrypt",
    "C84_intermediate",
    "C84_create",
    "C84_confirm",
    "C84_decrypt",
    "C84_error_texts"
   ],
   "note": "Python314.v models the functions that use bytes_to_string a second time, with bytes.fromhex accepting bytes; setup.py admits these versions (python_requires >=3.9,<4)."
  },
  {
   "property": "C85",
   "status": "proved",
   "theorems": [
    "C85_shown",
    "C85_within",
    "C85_or",
    "C85_beyond"
   ],
   "note": "DigitLimit.v models intermediate_code a further time, with int(...) and the f-strings under a limit; how text outside ASCII is rewritten is left arbitrary, as in C69."
  },
  {
   "property": "C86",
   "status": "proved",
   "theorems": [
    "C86_tables"
   ],
   "note": "CoinTable.v models the script; SpecTable.v reads tables. The classes are an argument; C86_met shows that the 155 classes of the module meet the hypotheses. Writing the two files is not modelled."
  },
  {
   "property": "C87",
   "status": "proved",
   "theorems": [
    "C87_json",
    "C87_results",
    "C87_plain_script",
    "C87_ec_script"
   ],
   "note": "ExampleScripts.v models the six programs in examples/ and json.dumps for the values the library returns; SpecJson.v reads JSON. Under Python 3.14 a value shown as bytes (C84) would make json.dumps raise TypeError; this is not modelled."
  },
  {
   "property": "C88",
   "status": "proved",
   "theorems": [
    "C88_no_floats",
    "C88_whole_part",
    "C88_lot_code",
    "C88_integers",
    "C88_fraction_sequence",
    "C88_zero",
    "C88_lot_range",
    "C88_sequence_range",
    "C88_not_finite",
    "C88_one_missing"
   ],
   "note": "Lot and sequence numbers given as floats"
  },
  {
   "property": "C89",
   "status": "proved",
   "theorems": [
    "C89_value",
    "C89_equal",
    "C89_every",
    "C89_public_key",
    "C89_infinity",
    "C89_refused"
   ],
   "note": "The expressions and their evaluation (run) only compose the modelled Point, PublicKey and PrivateKey methods; __radd__ and __rmul__ are the same functions. Points read from bytes that are off the curve (C46) are excluded by the hypotheses; arithmetic on them is not specified by the ecdsa package."
  },
  {
   "property": "C90",
   "status": "proved",
   "theorems": [
    "C90_only_through_scrypt",
    "C90_intermediate_code",
    "C90_encrypt",
    "C90_decrypt_plain",
    "C90_decrypt_ec",
    "C90_confirm_code"
   ],
   "note": "Holds for every choice of primitives (prims_ok), in particular every scrypt."
  },
  {
   "property": "C91",
   "status": "proved",
   "theorems": [
    "C91_trailing_nul",
    "C91_long",
    "C91_long_digest"
   ],
   "note": "scrypt is the published one: any ROMix in place of its middle part, PBKDF2-HMAC-SHA256 with the Sha256.v of this development."
  },
  {
   "property": "C92",
   "status": "proved",
   "theorems": [
    "C92_fails",
    "C92_lost",
    "C92_unaffected",
    "C92_blind"
   ],
   "note": "The comparison is with the same Python without ripemd160 in hashlib.algorithms_available (without_ripemd, C34)."
  },
  {
   "property": "C93",
   "status": "proved",
   "theorems": [
    "C93_intermediate_code",
    "C93_encrypt",
    "C93_decrypt_plain",
    "C93_decrypt_ec",
    "C93_confirm_code",
    "C93_create",
    "C93_create_point",
    "C93_decrypt_refused",
    "C93_confirm_refused",
    "C93_encrypt_refused",
    "C93_code_refused"
   ],
   "note": "Whether the real code evaluates scrypt without using the value cannot be seen in the model; the claim is about what the outcome depends on."
  },
  {
   "property": "C94",
   "status": "proved",
   "theorems": [
    "C94_constructor",
    "C94_refused",
    "C94_used",
    "C94_missing",
    "C94_statement",
    "C94_either",
    "C94_same_as_base",
    "C94_separate"
   ],
   "note": "Classes that see no table at all, del class.NETWORKS and assignments to ALPHABET are not modelled."
  },
  {
   "property": "C95",
   "status": "proved",
   "theorems": [
    "C95_intermediate_code",
    "C95_encrypt",
    "C95_create_new_encrypted_wif",
    "C95_confirm_code",
    "C95_decrypt",
    "C95_address",
    "C95_every_form",
    "C95_standard",
    "C95_packages",
    "C95_python_O",
    "C95_from_point_accepts",
    "C95_from_point_refuses",
    "C95_from_coordinates",
    "C95_only_assertions_go",
    "C95_overlong"
   ],
   "note": "A package is given by what the methods of PrivateKey, PublicKey and Point return with it; C95_packages shows some that qualify. C95_confirm_code takes prims_ok (the lengths of the parts of the point in the code come from AES and scrypt)."
  },
  {
   "property": "C96",
   "status": "proved",
   "theorems": [
    "C96_same",
    "C96_never_fails",
    "C96_too_long"
   ],
   "note": "No operation inside the bundled RIPEMD-160 fails"
  },
  {
   "property": "C97",
   "status": "proved",
   "theorems": [
    "C97_methods",
    "C97_functions",
    "C97_minimal",
    "C97_ripemd"
   ],
   "note": "Exchanging the libraries for hashes, scrypt, AES and Unicode"
  },
  {
   "property": "C98",
   "status": "proved",
   "theorems": [
    "C98_arrives",
    "C98_raised",
    "C98_by_keyword"
   ],
   "note": "The class is found again by its name (module-level classes). What pickle, str and repr do to the arguments is a parameter; travels asks of an argument that it arrives with the same str, repr and truth value, and laws says this of None and text."
  },
  {
   "property": "C99",
   "status": "proved",
   "theorems": [
    "C99_alone",
    "C99_copies",
    "C99_processes",
    "C99_sent",
    "C99_made",
    "C99_shared",
    "C99_refused",
    "C99_used",
    "C99_missing",
    "C99_worker",
    "C99_each_byte_once"
   ],
   "note": "Every class has a table of its own, as in C73; a class that pickle cannot find by name is not modelled. os.urandom of all processes is one stream of bytes."
  },
  {
   "property": "C100",
   "status": "proved",
   "theorems": [
    "C100_without",
    "C100_wif",
    "C100_encrypt",
    "C100_confirm_code",
    "C100_address"
   ],
   "note": "decode_wif, the WIF functions, encrypt, confirm_code and P2PKHAddress.decode with the exception that showing bytes raises as a parameter; equal to the model without the flag except for foreign prefixes. That the other methods show no bytes is read off the source, not proved."
  },
  {
   "property": "C101",
   "status": "proved",
   "theorems": [
    "C101_same",
    "C101_decrypt",
    "C101_encrypt",
    "C101_intermediate_code",
    "C101_confirm_code",
    "C101_create",
    "C101_wif",
    "C101_not_ascii",
    "C101_unicode_error",
    "C101_before",
    "C101_object",
    "C101_text",
    "C101_shown",
    "C101_form"
   ],
   "note": "The methods of BIP38, decode_wif and the WIF functions; P2PKHAddress.decode only in C101_same. Chains of the ecdsa package are one element; the local variables of frames are not modelled."
  },
  {
   "property": "C102",
   "status": "proved",
   "theorems": [
    "C102_one_kind",
    "C102_encrypt_kind",
    "C102_decrypt",
    "C102_confirm_code",
    "C102_create",
    "C102_wif",
    "C102_address"
   ],
   "note": "Prefixes are numbers of one or two bytes, as in the coin table; of the readers of wif.py, decode_wif and, through encrypt, what uses it."
  },
  {
   "property": "C103",
   "status": "proved",
   "theorems": [
    "C103_unchanged",
    "C103_same",
    "C103_taken",
    "C103_refused",
    "C103_empty",
    "C103_own",
    "C103_during_read",
    "C103_during_encode",
    "C103_during_check_encode",
    "C103_during_random"
   ],
   "note": "Changes during a call are treated for encode, check_encode, bytes_reverse, bytes_to_integer, decode, check_decode, intermediate_code and create_new_encrypted_wif; that nothing is written, for all functions. memoryview and libs/ripemd160.py called with a bytearray are not modelled."
  },
  {
   "property": "C104",
   "status": "proved",
   "theorems": [
    "C104_read",
    "C104_check_decode",
    "C104_address",
    "C104_decrypt",
    "C104_decrypt_plain",
    "C104_unnoticed_decrypt",
    "C104_last_character_decrypt",
    "C104_decode_wif",
    "C104_last_character_wif"
   ],
   "note": "For EC-multiplied keys only the records are shown to differ: two different records could hold the same key. Restricted to misprints of texts over the Base58 alphabet (the misprint may contain any character)."
  },
  {
   "property": "C105",
   "status": "proved",
   "theorems": [
    "C105_leading",
    "C105_trailing",
    "C105_check_decode",
    "C105_decrypt",
    "C105_decode_wif",
    "C105_encrypt",
    "C105_address",
    "C105_confirm_code",
    "C105_create"
   ],
   "note": "Only ASCII characters: others raise ValueError where the text is encoded (other properties). Prefix 0 is left out behind an address and a WIF: the leading zero bytes are counted separately from the value there; Examples9.v shows a text of value zero whose last character is lost."
  },
  {
   "property": "C106",
   "status": "proved",
   "theorems": [
    "C106_encrypt_letter_L",
    "C106_wif_only_L",
    "C106_wif_in_front",
    "C106_encrypt_in_front",
    "C106_decode",
    "C106_read",
    "C106_check_decode",
    "C106_codes",
    "C106_decrypt",
    "C106_wif",
    "C106_wif_behind",
    "C106_address",
    "C106_address_zero",
    "C106_wif_letter_L"
   ],
   "note": "A WIF of one type within a WIF of the other is characterised for the prefixes 30 to 255 (C106_wif_in_front; C106_wif_only_L for Bitcoin); for other prefixes only what stands behind is excluded. Prefix 0 is left out for WIFs; for addresses with prefix 0 whose hash starts with a byte below 5 only the checksum could tell, so nothing is claimed but that the bytes differ."
  },
  {
   "property": "C107",
   "status": "proved",
   "theorems": [
    "C107_encrypted_key",
    "C107_letters",
    "C107_intermediate_code",
    "C107_confirmation_code",
    "C107_other_length",
    "C107_decrypt_refuses",
    "C107_wif",
    "C107_address"
   ],
   "note": "Texts over the alphabet only: with other characters (digits of -1) there are accepted texts of other forms. With EC multiplication any flag byte is accepted (C49), so the second letter is not always P."
  }
 ]
}