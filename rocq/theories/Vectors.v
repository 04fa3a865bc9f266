(** * Vectors: the assertions of /repo/tests/*.py on /repo/tests/data/values.json,
    computed in the model.  Generated by tools/gen_vectors.py.

    SHA-256, RIPEMD-160, AES-256 and the curve are computed by Coq; scrypt with
    the parameters of BIP38 is out of reach of [vm_compute], so its values on the
    inputs of the test file are a table.  These are tests of the model (does it
    compute what the published vectors say), not proofs of properties.  Assertions
    that need a scalar multiplication are left out here, because coqchk, which has
    no virtual machine, takes minutes for each; 'gen_vectors.py all' writes them
    too, and all of them were checked once. *)
From Verif Require Import Py Prims Const Utils Exceptions Base58 Crypto Curve Secp256k1 Cryptocurrencies P2PKHAddress Wif Bip38
  Sha256 Aes SpecRipemd Instances Unicode.

Definition h2b (s : string) : bytes := match fromhex (str s) with Some b => b | None => [] end.
Definition scrypt_table : list (bytes * bytes * (Z * Z * Z * Z) * bytes) := [
  ((h2b "4d4f4c4f4e204c414245"), (h2b "d7ebe42cf42a79f4"), (16384, 8, 8, 32), (h2b "bcc9a4be214fc43d11642934fa471a1ea191862dbbf2f6a72eba269540501b85"));
  ((h2b "4d4f4c4f4e204c414245"), (h2b "d7ebe42c"), (16384, 8, 8, 32), (h2b "1db02b57be783336f9036310dc2f70c5efb871054666d7684593becdc544cdcd"));
  ((h2b "54657374696e674f6e6554776f5468726565"), (h2b "e957a24a"), (16384, 8, 8, 64), (h2b "f87648a6b42fdd86ef6837a249cde15318f264d43a859b610e78ea63d51cb2d3e60bf44bfb29d543bba24afcccfadbfc6ef9312fcccf589fa5ea1366ec21e4c0"));
  ((h2b "54657374696e674f6e6554776f5468726565"), (h2b "2caab09d"), (16384, 8, 8, 64), (h2b "a313727ab0d536fcb1b9f6d73fd3c46d7213ccbaa7e00d5c9a298036d58c21b05f86a73fff1437008e3bed9fa78da1405bc8b264683e253e22e7362852e17ece"));
  ((h2b "54657374696e674f6e6554776f5468726565"), (h2b "43be4179"), (16384, 8, 8, 64), (h2b "731ef3c737b55df4998b44fa8a547a3f38df424da240de389b11d1875ba477672f2fe81b0532b5950e3ea6fff92c65d467aa7d054969821de2344f7a86d42569"));
  ((h2b "54657374696e674f6e6554776f5468726565"), (h2b "cdaf559a"), (16384, 8, 8, 64), (h2b "082c1c743bd0ba20c2e0499060b3256a6f6b0c1f7028a6608cbbe477b5043d4c0e7b3e711e1324e2022127bc344d4b0c0d58b0bc4a85f13e4aafc20471a5148f"));
  ((h2b "0232e5e418fa8fca8dc41d4d2db362713205b12163035add548094d91a1607df73"), (h2b "401f83b7d7ebe42cf42a79f4"), (1024, 1, 1, 64), (h2b "ff85e907ca2549aece6fb0e4c90a738effef98c97616ebb7c15d4c49e43d1d920496117bddeb1a62697bbc066de6fb01993d78a7b8b277bac3daf0a6338dec9a"));
  ((h2b "023098aad0c38d062d4dd9d332acd9839a05f241373b9d6efc466a1796d9e3657a"), (h2b "f74f4e35d7ebe42c186a0001"), (1024, 1, 1, 64), (h2b "236615bce854b747612136b385e7d33868dd1f9a2e0007a2fb04f9ccc17eae0e5c0f5205092cbc05f775f1f68598d9f488f66c2e46e8077d4447fd29db99adbb"));
  ((h2b "46414b455f50415353504852415345"), (h2b "d7ebe42cf42a79f4"), (16384, 8, 8, 32), (h2b "daffe9675c48cc55e561425c19a2e0278b4a5bb5d7073695429467bb57cf58cd"));
  ((h2b "02c276ea5108a3aa83506990efdcde4914f4020e4e68be47be7f4b9503b03267e2"), (h2b "401f83b7d7ebe42cf42a79f4"), (1024, 1, 1, 64), (h2b "fbb469005ba72d60a17050dbca409c99e1c427a582afc686a73984bf25fa0ae00583cf518b4464ce1927e69be98e3ff5729c68f5a79ec699dc429ecf9ef5a78f"));
  ((h2b "46414b455f50415353504852415345"), (h2b "d7ebe42c"), (16384, 8, 8, 32), (h2b "7068949bb3cf05130fa14076b9828307f940eca5c91708d3f597fa53ad527015"));
  ((h2b "02cc1a1fd401cd92072b2353fdaf8abfdcd524413c9f78e6544d94f24687792240"), (h2b "f74f4e35d7ebe42c186a0001"), (1024, 1, 1, 64), (h2b "f40fde1d0137a5775196383f60b57f47e7c010be28fe7015a3fb50256f9c726642ed06849df5bbba1ab700236bc1d6b83d978830230f9c2ba66ff8823b3a87b7"));
  ((h2b "5361746f736869"), (h2b "572e117e"), (16384, 8, 8, 64), (h2b "02d4a6b94240bd1cdaa6773f430e43a0d9a8cbc9a83b044998f7ef2e3f31a4de7f2436fede417c46b988879f4ef0595b75a55bcaec27848ef94e9f4b4d684cb9"));
  ((h2b "5361746f736869"), (h2b "26e017d2"), (16384, 8, 8, 64), (h2b "0478e3e18d96ae2fbe033e3261944670c0ead16336890e4af46f55851ae211d22c97d288383bfd14983e5c574dafeb66f31b16bad037d40a6467019840ffa323"));
  ((h2b "54657374696e674f6e6554776f5468726565"), (h2b "a50dba6772cb9383"), (16384, 8, 8, 32), (h2b "c8ff7a1c8c8898a0361e477fa8f0f05c00d07c5d9626f00b03c0140a307c98f4"));
  ((h2b "020eac136e97ce6bf3e2bceb65d906742f7317b6518c54c64353c43dcc36688c47"), (h2b "62b5b722a50dba6772cb9383"), (1024, 1, 1, 64), (h2b "da2d320e2ca088575369601e94dd71f210fc69c047a3d0f48bdbaab595916dc7b8d083ea2678b5a71558c0fb0efa58b565227d05adf0c25fa0b9a74755477827"));
  ((h2b "5361746f736869"), (h2b "67010a9573418906"), (16384, 8, 8, 32), (h2b "e8a9722cf7988c31f929bd656085ca6470595e068bae22858ea7d84fb4197a99"));
  ((h2b "022413a674b5bceab5abe0b14ce44dfa7fc6b55ecdbed88e7c50c0b4e953f1e05e"), (h2b "059a548167010a9573418906"), (1024, 1, 1, 64), (h2b "dc7d942ea3c6c8953b30ee010c147a3222f6f5c52923e28185832f64d86781bc5120c42e25509460892ac9fec45e1bc52613238e1b5c1ead9d41bdeea8892c5c"));
  ((h2b "4d4f4c4f4e204c414245"), (h2b "4fca5a97"), (16384, 8, 8, 32), (h2b "7f5aee1a080d9e84f4ddf31f8b78356f472c03ac95bff320789d50137e66f279"));
  ((h2b "02a6bf1824208903aa344833d614f7fa3ba46f4f8d57b2e219a1cfac961a9b7395"), (h2b "bb458cef4fca5a974040f001"), (1024, 1, 1, 64), (h2b "a8bc4ad35fb69cc37f129abb458245e4523c97133b22a5cad88035f99d0b1d50ffc8317a1eaea330e1e17305539ec5c5ce36168a35d6d13fefa21d5e2cb1c1e9"));
  ((h2b "ce9cce9fce9bcea9ce9d20ce9bce91ce92ce95"), (h2b "c40ea76f"), (16384, 8, 8, 32), (h2b "147562b11c3a361365d89c1a2e5bed186c43c3c2d964632d17b2a56f96fc3110"));
  ((h2b "030a7a6f6536951f1cdf450e9ef6c1f615b904af58f7c17598cec3274e6769d3ef"), (h2b "494af136c40ea76fc501a001"), (1024, 1, 1, 64), (h2b "1471d24b21c21e164f48237e9a5f0926493bf6118373a0d2e18387a7c345646d6889d2c30be9721874f10844fb98794de1caba62bb659a51492d4f33ca3237d7"))
].
Fixpoint lookup (t : list (bytes * bytes * (Z * Z * Z * Z) * bytes)) (pw salt : bytes) (N r p : Z) (len : nat) : bytes :=
  match t with
  | [] => repeat x00 len
  | (pw', salt', (N', r', p', len'), v) :: t' =>
      if bytes_eqb pw pw' && bytes_eqb salt salt' && (N =? N') && (r =? r') && (p =? p') && (Z.of_nat len =? len') then v
      else lookup t' pw salt N r p len
  end%bool.
Definition vec : prims :=
  {| h_sha256 := Sha256.sha256; h_ripemd160 := Some (fun b => Ok (rmd160 b)); h_scrypt := lookup scrypt_table;
     h_aes_enc := aes256_enc; h_aes_dec := aes256_dec; h_nfc := Unicode.nfc |}.
Definition bitcoin (network : string) : bip38 :=
  match bip38_init (CoinClass coin_Bitcoin) (str network) with
  | Ok b => b
  | Raise _ => {| s_cryptocurrency := coin_Bitcoin; s_network := []; s_networks := []; s_alphabet := [] |}
  end.
Definition lib_class_dec (a b : lib_class) : {a = b} + {a <> b}. Proof. decide equality. Defined.
Definition raises {A} (c : lib_class) (r : res A) : bool := match r with Raise (Lib c' _) => if lib_class_dec c c' then true else false | _ => false end.

Example scrypt_rfc7914 : tohex (scrypt [] [] 16 1 1 64) = (str "77d6576238657b203b19ca42c18a0497f16b4844e3074ae8dfdffa3fede21442fcd0069ded0948f8326a753a0fc81f17e8d3e0fb2e0d3628cf35e20c38d18906").
Proof. vm_compute. reflexivity. Qed.
Example create_fake_code_0 : raises CPassphraseError (create_new_encrypted_wif vec [] (bitcoin "mainnet") (str "FAKE_PASSPHRASE") (str "wif-compressed") (PStr (str "9b6cad86daddae99ac3b76c1e47e61bc7f4665d02e10c290")) None) = true.
Proof. vm_compute. reflexivity. Qed.
Example create_fake_network_0 : raises CNetworkError (create_new_encrypted_wif vec [] (bitcoin "mainnet") (str "passphraserDFxboKK9cTkBQMb73vdzgsXB5L6cCMFCzTVoMTpMWYD8SJXv3jcKyHbRWBcza") (str "wif-compressed") (PStr (str "9b6cad86daddae99ac3b76c1e47e61bc7f4665d02e10c290")) (Some (str "FAKE_NETWORK"))) = true.
Proof. vm_compute. reflexivity. Qed.
Example create_fake_code_1 : raises CPassphraseError (create_new_encrypted_wif vec [] (bitcoin "mainnet") (str "FAKE_PASSPHRASE") (str "wif") (PStr (str "9b6cad86daddae99ac3b76c1e47e61bc7f4665d02e10c290")) None) = true.
Proof. vm_compute. reflexivity. Qed.
Example create_fake_network_1 : raises CNetworkError (create_new_encrypted_wif vec [] (bitcoin "mainnet") (str "passphrasedYVZ6EdRqSmcHHsYWmJ7wzWcWYuDQmf9EGH9Pnrv67eHy4qswaAGGc8Et3eeGp") (str "wif") (PStr (str "9b6cad86daddae99ac3b76c1e47e61bc7f4665d02e10c290")) (Some (str "FAKE_NETWORK"))) = true.
Proof. vm_compute. reflexivity. Qed.
Example confirm_fake_network_0 : raises CNetworkError (confirm_code vec (bitcoin "mainnet") (str "MOLON LABE") (str "cfrm38VUF9PjRxQojZERDySt9Q7Z9FSdhQkMP5RFsouS4y3Emf2YD2CXXMCypQvv94dJujaPTfq") (Some (str "FAKE_NETWORK")) false) = true.
Proof. vm_compute. reflexivity. Qed.
Example confirm_fake_code_0 : raises CError (confirm_code vec (bitcoin "mainnet") (str "MOLON LABE") (str "FAKE_CONFIRMATION_CODE") None false) = true.
Proof. vm_compute. reflexivity. Qed.
Example confirm_fake_network_1 : raises CNetworkError (confirm_code vec (bitcoin "mainnet") (str "MOLON LABE") (str "cfrm38V8kEzECGczWJmEoGuYfkoamcmVij3tHUhD6DEEquSRXp61HzhnT8jwQwBBZiKs9Jg4LXZ") (Some (str "FAKE_NETWORK")) false) = true.
Proof. vm_compute. reflexivity. Qed.
Example confirm_fake_code_1 : raises CError (confirm_code vec (bitcoin "mainnet") (str "MOLON LABE") (str "FAKE_CONFIRMATION_CODE") None false) = true.
Proof. vm_compute. reflexivity. Qed.
Example decrypt_fake_network_0 : raises CNetworkError (decrypt vec (bitcoin "mainnet") (str "6PRVWUbkzzsbcVac2qwfssoUJAN1Xhrg6bNk8J7Nzm5H7kxEbn2Nh2ZoGg") (str "TestingOneTwoThree") (Some (str "FAKE_NETWORK")) true) = true.
Proof. vm_compute. reflexivity. Qed.
Example decrypt_fake_network_1 : raises CNetworkError (decrypt vec (bitcoin "testnet") (str "6PRL8jj6dLQjBBJjHMdUKLSNLEpjTyAfmt8GnCnfT87NeQ2BU5eAW1tcsS") (str "TestingOneTwoThree") (Some (str "FAKE_NETWORK")) true) = true.
Proof. vm_compute. reflexivity. Qed.
Example decrypt_fake_network_2 : raises CNetworkError (decrypt vec (bitcoin "mainnet") (str "6PRNFFkZc2NZ6dJqFfhRoFNMR9Lnyj7dYGrzdgXXVMXcxoKTePPX1dWByq") (str "Satoshi") (Some (str "FAKE_NETWORK")) true) = true.
Proof. vm_compute. reflexivity. Qed.
Example decrypt_fake_network_3 : raises CNetworkError (decrypt vec (bitcoin "mainnet") (str "6PYNKZ1EAgYgmQfmNVamxyXVWHzK5s6DGhwP4J5o44cvXdoY7sRzhtpUeo") (str "TestingOneTwoThree") (Some (str "FAKE_NETWORK")) true) = true.
Proof. vm_compute. reflexivity. Qed.
Example decrypt_fake_network_4 : raises CNetworkError (decrypt vec (bitcoin "testnet") (str "6PYVB5nHnumbUua1UmsAMPHWHa76Ci48MY79aKYnpKmwxeGqHU2XpXtKvo") (str "TestingOneTwoThree") (Some (str "FAKE_NETWORK")) true) = true.
Proof. vm_compute. reflexivity. Qed.
Example decrypt_fake_network_5 : raises CNetworkError (decrypt vec (bitcoin "mainnet") (str "6PYLtMnXvfG3oJde97zRyLYFZCYizPU5T3LwgdYJz1fRhh16bU7u6PPmY7") (str "Satoshi") (Some (str "FAKE_NETWORK")) true) = true.
Proof. vm_compute. reflexivity. Qed.
Example decrypt_fake_network_6 : raises CNetworkError (decrypt vec (bitcoin "mainnet") (str "6PfQu77ygVyJLZjfvMLyhLMQbYnu5uguoJJ4kMCLqWwPEdfpwANVS76gTX") (str "TestingOneTwoThree") (Some (str "FAKE_NETWORK")) true) = true.
Proof. vm_compute. reflexivity. Qed.
Example decrypt_fake_network_7 : raises CNetworkError (decrypt vec (bitcoin "mainnet") (str "6PfLGnQs6VZnrNpmVKfjotbnQuaJK4KZoPFrAjx1JMJUa1Ft8gnf5WxfKd") (str "Satoshi") (Some (str "FAKE_NETWORK")) true) = true.
Proof. vm_compute. reflexivity. Qed.
Example decrypt_fake_network_8 : raises CNetworkError (decrypt vec (bitcoin "mainnet") (str "6PgNBNNzDkKdhkT6uJntUXwwzQV8Rr2tZcbkDcuC9DZRsS6AtHts4Ypo1j") (str "MOLON LABE") (Some (str "FAKE_NETWORK")) true) = true.
Proof. vm_compute. reflexivity. Qed.
Example decrypt_fake_network_9 : raises CNetworkError (decrypt vec (bitcoin "mainnet") (str "6PgGWtx25kUg8QWvwuJAgorN6k9FbE25rv5dMRwu5SKMnfpfVe5mar2ngH") [924%N; 927%N; 923%N; 937%N; 925%N; 32%N; 923%N; 913%N; 914%N; 917%N] (Some (str "FAKE_NETWORK")) true) = true.
Proof. vm_compute. reflexivity. Qed.
Example decrypt_fake_network_10 : raises CNetworkError (decrypt vec (bitcoin "mainnet") (str "6PnQDk5XngQugiy1Fi2kzzgKAQrxZrtQDGNFiQTMamjiJcjBT4LhXdnhNf") (str "MOLON LABE") (Some (str "FAKE_NETWORK")) true) = true.
Proof. vm_compute. reflexivity. Qed.
Example decrypt_fake_network_11 : raises CNetworkError (decrypt vec (bitcoin "mainnet") (str "6PgRAPfrPWjPXfC6x9XB139RHzUP8GFcVen5Ju3qJDhRP69Q4Vd8Wbct6B") (str "MOLON LABE") (Some (str "FAKE_NETWORK")) true) = true.
Proof. vm_compute. reflexivity. Qed.
Example crypto_ripemd160 : crypto_ripemd160 vec (PStr (str "ed80bbc9f7179de7")) = Ok (h2b "91cdf0d1063216c909c2c525f73558517a980468").
Proof. vm_compute. reflexivity. Qed.
Example crypto_sha256 : Crypto.sha256 vec (PStr (str "ed80bbc9f7179de7")) = Ok (h2b "862c0d0cfd80e199164a5eee580dd2e19054222c22b2b641846de1eb5b243901").
Proof. vm_compute. reflexivity. Qed.
Example crypto_double_sha256 : double_sha256 vec (PStr (str "ed80bbc9f7179de7")) = Ok (h2b "b29a94bde8c581a03ab78c54e674ea7426fd04fe32e031185f5fdb82b177297a").
Proof. vm_compute. reflexivity. Qed.
Example crypto_get_checksum : get_checksum vec (PStr (str "ed80bbc9f7179de7")) = Ok (h2b "b29a94bd").
Proof. vm_compute. reflexivity. Qed.
Example crypto_hash160 : hash160 vec (PStr (str "ed80bbc9f7179de7")) = Ok (h2b "57c252fa18905810b8311bbad1c313ab9e37f683").
Proof. vm_compute. reflexivity. Qed.
Example wif_mainnet : encode_wif vec (PStr (str "cbf4b9f70470856bb4f40f80b87edb90865997ffee6df315ab166d713af433a5")) 128 = Ok ((str "5KN7MzqK5wt2TP1fQCYyHBtDrXdJuXbUzm4A9rKAteGu3Qi5CVR"), (str "L44B5gGEpqEDRS9vVPz7QT35jcBG2r3CZwSwQ4fCewXAhAhqGVpP")).
Proof. vm_compute. reflexivity. Qed.
Example unwif_mainnet_compressed : decode_wif (str "L44B5gGEpqEDRS9vVPz7QT35jcBG2r3CZwSwQ4fCewXAhAhqGVpP") 128 = Ok ((h2b "cbf4b9f70470856bb4f40f80b87edb90865997ffee6df315ab166d713af433a5"), (str "wif-compressed"), (h2b "dc37f844")).
Proof. vm_compute. reflexivity. Qed.
Example unwif_mainnet_uncompressed : decode_wif (str "5KN7MzqK5wt2TP1fQCYyHBtDrXdJuXbUzm4A9rKAteGu3Qi5CVR") 128 = Ok ((h2b "cbf4b9f70470856bb4f40f80b87edb90865997ffee6df315ab166d713af433a5"), (str "wif"), (h2b "f0a25c0c")).
Proof. vm_compute. reflexivity. Qed.
Example wif_testnet : encode_wif vec (PStr (str "cbf4b9f70470856bb4f40f80b87edb90865997ffee6df315ab166d713af433a5")) 239 = Ok ((str "938jwjergAxARSWx2YSt9nSBWBz24h8gLhv7EUfgEP1wpMLg6iX"), (str "cURAYbG6FtvUasdBsooEmmY9MqUfhJ8tdybQWV7iA4BAwunCT2Fu")).
Proof. vm_compute. reflexivity. Qed.
Example unwif_testnet_compressed : decode_wif (str "cURAYbG6FtvUasdBsooEmmY9MqUfhJ8tdybQWV7iA4BAwunCT2Fu") 239 = Ok ((h2b "cbf4b9f70470856bb4f40f80b87edb90865997ffee6df315ab166d713af433a5"), (str "wif-compressed"), (h2b "d18ea264")).
Proof. vm_compute. reflexivity. Qed.
Example unwif_testnet_uncompressed : decode_wif (str "938jwjergAxARSWx2YSt9nSBWBz24h8gLhv7EUfgEP1wpMLg6iX") 239 = Ok ((h2b "cbf4b9f70470856bb4f40f80b87edb90865997ffee6df315ab166d713af433a5"), (str "wif"), (h2b "2e14d4a4")).
Proof. vm_compute. reflexivity. Qed.
Example wif_regtest : encode_wif vec (PStr (str "cbf4b9f70470856bb4f40f80b87edb90865997ffee6df315ab166d713af433a5")) 239 = Ok ((str "938jwjergAxARSWx2YSt9nSBWBz24h8gLhv7EUfgEP1wpMLg6iX"), (str "cURAYbG6FtvUasdBsooEmmY9MqUfhJ8tdybQWV7iA4BAwunCT2Fu")).
Proof. vm_compute. reflexivity. Qed.
Example unwif_regtest_compressed : decode_wif (str "cURAYbG6FtvUasdBsooEmmY9MqUfhJ8tdybQWV7iA4BAwunCT2Fu") 239 = Ok ((h2b "cbf4b9f70470856bb4f40f80b87edb90865997ffee6df315ab166d713af433a5"), (str "wif-compressed"), (h2b "d18ea264")).
Proof. vm_compute. reflexivity. Qed.
Example unwif_regtest_uncompressed : decode_wif (str "938jwjergAxARSWx2YSt9nSBWBz24h8gLhv7EUfgEP1wpMLg6iX") 239 = Ok ((h2b "cbf4b9f70470856bb4f40f80b87edb90865997ffee6df315ab166d713af433a5"), (str "wif"), (h2b "2e14d4a4")).
Proof. vm_compute. reflexivity. Qed.
Example address_compressed : P2PKH_encode vec (PKData (PStr (str "0374a436044b4904bbd7a074b098d65fad39fc5b66f28da8440f10dbcf86568429"))) (Some 0) (Some (str "compressed")) None = Ok (str "1L1peQYCrrMPRPbbT9UCXainKtczSiekmy").
Proof. vm_compute. reflexivity. Qed.
Example unaddress_compressed : P2PKH_decode vec (str "1L1peQYCrrMPRPbbT9UCXainKtczSiekmy") (Some 0) None = Ok (str "d0922970a0d10b34833d306246258260cc51ffbb").
Proof. vm_compute. reflexivity. Qed.
Example address_uncompressed : P2PKH_encode vec (PKData (PStr (str "0474a436044b4904bbd7a074b098d65fad39fc5b66f28da8440f10dbcf86568429aae5b09b4de9cee5d2f9f98044f688aa98f910134a8e87eff28ec5ba35ddf273"))) (Some 0) (Some (str "uncompressed")) None = Ok (str "1PjUmct419YuipdLQsL6uRwtRkfhik7ZDn").
Proof. vm_compute. reflexivity. Qed.
Example unaddress_uncompressed : P2PKH_decode vec (str "1PjUmct419YuipdLQsL6uRwtRkfhik7ZDn") (Some 0) None = Ok (str "f95b6b13d4fd066e6f99a80f778955289f560952").
Proof. vm_compute. reflexivity. Qed.
