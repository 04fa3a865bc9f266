(** * Cryptocurrencies: /repo/bip38/cryptocurrencies.py
    Generated from the source text by /verif/tools/gen_cryptocurrencies.py;
    every record cites the lines of its class. *)
From Verif Require Import Py.

(** A concrete subclass of ICryptocurrency: the NETWORKS dict in source order
    (name, (wif_prefix, address_prefix)) and the ALPHABET class attribute
    (None unless overridden, cryptocurrencies.py:12-15). *)
Record coin := {
  c_name : pystr;
  c_networks : list (pystr * (Z * Z));
  c_alphabet : option pystr
}.

(** cryptocurrencies.py:18-25 *)
Definition coin_Adcoin : coin := {| c_name := str "Adcoin";
  c_networks := [(str "mainnet", (0xb0, 0x17))];
  c_alphabet := None |}.

(** cryptocurrencies.py:28-35 *)
Definition coin_Anon : coin := {| c_name := str "Anon";
  c_networks := [(str "mainnet", (0x80, 0x582))];
  c_alphabet := None |}.

(** cryptocurrencies.py:38-45 *)
Definition coin_Argoneum : coin := {| c_name := str "Argoneum";
  c_networks := [(str "mainnet", (0xbf, 0x32))];
  c_alphabet := None |}.

(** cryptocurrencies.py:48-55 *)
Definition coin_Artax : coin := {| c_name := str "Artax";
  c_networks := [(str "mainnet", (0x97, 0x17))];
  c_alphabet := None |}.

(** cryptocurrencies.py:58-65 *)
Definition coin_Aryacoin : coin := {| c_name := str "Aryacoin";
  c_networks := [(str "mainnet", (0x97, 0x17))];
  c_alphabet := None |}.

(** cryptocurrencies.py:68-75 *)
Definition coin_Asiacoin : coin := {| c_name := str "Asiacoin";
  c_networks := [(str "mainnet", (0x97, 0x17))];
  c_alphabet := None |}.

(** cryptocurrencies.py:78-85 *)
Definition coin_Auroracoin : coin := {| c_name := str "Auroracoin";
  c_networks := [(str "mainnet", (0x97, 0x17))];
  c_alphabet := None |}.

(** cryptocurrencies.py:88-95 *)
Definition coin_Avian : coin := {| c_name := str "Avian";
  c_networks := [(str "mainnet", (0x80, 0x3c))];
  c_alphabet := None |}.

(** cryptocurrencies.py:98-105 *)
Definition coin_Axe : coin := {| c_name := str "Axe";
  c_networks := [(str "mainnet", (0xcc, 0x37))];
  c_alphabet := None |}.

(** cryptocurrencies.py:108-115 *)
Definition coin_Bata : coin := {| c_name := str "Bata";
  c_networks := [(str "mainnet", (0xa4, 0x19))];
  c_alphabet := None |}.

(** cryptocurrencies.py:118-125 *)
Definition coin_BeetleCoin : coin := {| c_name := str "BeetleCoin";
  c_networks := [(str "mainnet", (0x99, 0x1a))];
  c_alphabet := None |}.

(** cryptocurrencies.py:128-135 *)
Definition coin_BelaCoin : coin := {| c_name := str "BelaCoin";
  c_networks := [(str "mainnet", (0x99, 0x19))];
  c_alphabet := None |}.

(** cryptocurrencies.py:138-145 *)
Definition coin_BitCloud : coin := {| c_name := str "BitCloud";
  c_networks := [(str "mainnet", (0x99, 0x19))];
  c_alphabet := None |}.

(** cryptocurrencies.py:148-164 *)
Definition coin_Bitcoin : coin := {| c_name := str "Bitcoin";
  c_networks := [(str "mainnet", (0x80, 0x0));
                 (str "testnet", (0xef, 0x6f));
                 (str "regtest", (0xef, 0x6f))];
  c_alphabet := Some (str "123456789ABCDEFGHJKLMNPQRSTUVWXYZabcdefghijkmnopqrstuvwxyz") |}.

(** cryptocurrencies.py:167-174 *)
Definition coin_BitcoinAtom : coin := {| c_name := str "BitcoinAtom";
  c_networks := [(str "mainnet", (0x80, 0x17))];
  c_alphabet := None |}.

(** cryptocurrencies.py:177-184 *)
Definition coin_BitcoinGold : coin := {| c_name := str "BitcoinGold";
  c_networks := [(str "mainnet", (0x80, 0x26))];
  c_alphabet := None |}.

(** cryptocurrencies.py:187-194 *)
Definition coin_BitcoinGreen : coin := {| c_name := str "BitcoinGreen";
  c_networks := [(str "mainnet", (0x2e, 0x26))];
  c_alphabet := None |}.

(** cryptocurrencies.py:197-204 *)
Definition coin_BitcoinPlus : coin := {| c_name := str "BitcoinPlus";
  c_networks := [(str "mainnet", (0x99, 0x19))];
  c_alphabet := None |}.

(** cryptocurrencies.py:207-218 *)
Definition coin_BitcoinPrivate : coin := {| c_name := str "BitcoinPrivate";
  c_networks := [(str "mainnet", (0x80, 0x1325));
                 (str "testnet", (0xef, 0x1957))];
  c_alphabet := None |}.

(** cryptocurrencies.py:221-228 *)
Definition coin_BitcoinSV : coin := {| c_name := str "BitcoinSV";
  c_networks := [(str "mainnet", (0x80, 0x0))];
  c_alphabet := None |}.

(** cryptocurrencies.py:231-238 *)
Definition coin_BitcoinZ : coin := {| c_name := str "BitcoinZ";
  c_networks := [(str "mainnet", (0x80, 0x1cb8))];
  c_alphabet := None |}.

(** cryptocurrencies.py:241-248 *)
Definition coin_Bitcore : coin := {| c_name := str "Bitcore";
  c_networks := [(str "mainnet", (0x80, 0x3))];
  c_alphabet := None |}.

(** cryptocurrencies.py:251-258 *)
Definition coin_BitSend : coin := {| c_name := str "BitSend";
  c_networks := [(str "mainnet", (0xcc, 0x66))];
  c_alphabet := None |}.

(** cryptocurrencies.py:261-268 *)
Definition coin_Blackcoin : coin := {| c_name := str "Blackcoin";
  c_networks := [(str "mainnet", (0x99, 0x19))];
  c_alphabet := None |}.

(** cryptocurrencies.py:271-282 *)
Definition coin_Blocknode : coin := {| c_name := str "Blocknode";
  c_networks := [(str "mainnet", (0x4b, 0x19));
                 (str "testnet", (0x89, 0x55))];
  c_alphabet := None |}.

(** cryptocurrencies.py:285-292 *)
Definition coin_BlockStamp : coin := {| c_name := str "BlockStamp";
  c_networks := [(str "mainnet", (0x80, 0x0))];
  c_alphabet := None |}.

(** cryptocurrencies.py:295-302 *)
Definition coin_Bolivarcoin : coin := {| c_name := str "Bolivarcoin";
  c_networks := [(str "mainnet", (0xd5, 0x55))];
  c_alphabet := None |}.

(** cryptocurrencies.py:305-312 *)
Definition coin_BritCoin : coin := {| c_name := str "BritCoin";
  c_networks := [(str "mainnet", (0x99, 0x19))];
  c_alphabet := None |}.

(** cryptocurrencies.py:315-322 *)
Definition coin_CanadaeCoin : coin := {| c_name := str "CanadaeCoin";
  c_networks := [(str "mainnet", (0x9c, 0x1c))];
  c_alphabet := None |}.

(** cryptocurrencies.py:325-332 *)
Definition coin_Cannacoin : coin := {| c_name := str "Cannacoin";
  c_networks := [(str "mainnet", (0x9c, 0x1c))];
  c_alphabet := None |}.

(** cryptocurrencies.py:335-342 *)
Definition coin_Clams : coin := {| c_name := str "Clams";
  c_networks := [(str "mainnet", (0x85, 0x89))];
  c_alphabet := None |}.

(** cryptocurrencies.py:345-352 *)
Definition coin_ClubCoin : coin := {| c_name := str "ClubCoin";
  c_networks := [(str "mainnet", (0x99, 0x1c))];
  c_alphabet := None |}.

(** cryptocurrencies.py:355-362 *)
Definition coin_Compcoin : coin := {| c_name := str "Compcoin";
  c_networks := [(str "mainnet", (0x9c, 0x1c))];
  c_alphabet := None |}.

(** cryptocurrencies.py:365-372 *)
Definition coin_CPUChain : coin := {| c_name := str "CPUChain";
  c_networks := [(str "mainnet", (0x80, 0x1c))];
  c_alphabet := None |}.

(** cryptocurrencies.py:375-382 *)
Definition coin_CranePay : coin := {| c_name := str "CranePay";
  c_networks := [(str "mainnet", (0x7b, 0x1c))];
  c_alphabet := None |}.

(** cryptocurrencies.py:385-392 *)
Definition coin_Crave : coin := {| c_name := str "Crave";
  c_networks := [(str "mainnet", (0x99, 0x46))];
  c_alphabet := None |}.

(** cryptocurrencies.py:395-406 *)
Definition coin_Dash : coin := {| c_name := str "Dash";
  c_networks := [(str "mainnet", (0xcc, 0x4c));
                 (str "testnet", (0xef, 0x8c))];
  c_alphabet := None |}.

(** cryptocurrencies.py:409-416 *)
Definition coin_DeepOnion : coin := {| c_name := str "DeepOnion";
  c_networks := [(str "mainnet", (0x9f, 0x1f))];
  c_alphabet := None |}.

(** cryptocurrencies.py:419-426 *)
Definition coin_Defcoin : coin := {| c_name := str "Defcoin";
  c_networks := [(str "mainnet", (0x9e, 0x1e))];
  c_alphabet := None |}.

(** cryptocurrencies.py:429-436 *)
Definition coin_Denarius : coin := {| c_name := str "Denarius";
  c_networks := [(str "mainnet", (0x9e, 0x1e))];
  c_alphabet := None |}.

(** cryptocurrencies.py:439-446 *)
Definition coin_Diamond : coin := {| c_name := str "Diamond";
  c_networks := [(str "mainnet", (0xda, 0x5a))];
  c_alphabet := None |}.

(** cryptocurrencies.py:449-456 *)
Definition coin_DigiByte : coin := {| c_name := str "DigiByte";
  c_networks := [(str "mainnet", (0x80, 0x1e))];
  c_alphabet := None |}.

(** cryptocurrencies.py:459-466 *)
Definition coin_Digitalcoin : coin := {| c_name := str "Digitalcoin";
  c_networks := [(str "mainnet", (0x9e, 0x1e))];
  c_alphabet := None |}.

(** cryptocurrencies.py:469-480 *)
Definition coin_Divi : coin := {| c_name := str "Divi";
  c_networks := [(str "mainnet", (0xd4, 0x1e));
                 (str "testnet", (0xd4, 0x1e))];
  c_alphabet := None |}.

(** cryptocurrencies.py:483-494 *)
Definition coin_Dogecoin : coin := {| c_name := str "Dogecoin";
  c_networks := [(str "mainnet", (0xf1, 0x1e));
                 (str "testnet", (0xf1, 0x71))];
  c_alphabet := None |}.

(** cryptocurrencies.py:497-504 *)
Definition coin_Ecoin : coin := {| c_name := str "Ecoin";
  c_networks := [(str "mainnet", (0xdc, 0x5c))];
  c_alphabet := None |}.

(** cryptocurrencies.py:507-514 *)
Definition coin_EDRCoin : coin := {| c_name := str "EDRCoin";
  c_networks := [(str "mainnet", (0xdd, 0x5d))];
  c_alphabet := None |}.

(** cryptocurrencies.py:517-524 *)
Definition coin_eGulden : coin := {| c_name := str "eGulden";
  c_networks := [(str "mainnet", (0xb0, 0x30))];
  c_alphabet := None |}.

(** cryptocurrencies.py:527-534 *)
Definition coin_Einsteinium : coin := {| c_name := str "Einsteinium";
  c_networks := [(str "mainnet", (0xa1, 0x21))];
  c_alphabet := None |}.

(** cryptocurrencies.py:537-544 *)
Definition coin_Elastos : coin := {| c_name := str "Elastos";
  c_networks := [(str "mainnet", (0x80, 0x21))];
  c_alphabet := None |}.

(** cryptocurrencies.py:547-554 *)
Definition coin_Energi : coin := {| c_name := str "Energi";
  c_networks := [(str "mainnet", (0x6a, 0x21))];
  c_alphabet := None |}.

(** cryptocurrencies.py:557-564 *)
Definition coin_EuropeCoin : coin := {| c_name := str "EuropeCoin";
  c_networks := [(str "mainnet", (0xa8, 0x21))];
  c_alphabet := None |}.

(** cryptocurrencies.py:567-578 *)
Definition coin_Evrmore : coin := {| c_name := str "Evrmore";
  c_networks := [(str "mainnet", (0x80, 0x21));
                 (str "testnet", (0xef, 0x6f))];
  c_alphabet := None |}.

(** cryptocurrencies.py:581-588 *)
Definition coin_ExclusiveCoin : coin := {| c_name := str "ExclusiveCoin";
  c_networks := [(str "mainnet", (0xa1, 0x21))];
  c_alphabet := None |}.

(** cryptocurrencies.py:591-598 *)
Definition coin_Feathercoin : coin := {| c_name := str "Feathercoin";
  c_networks := [(str "mainnet", (0x8e, 0xe))];
  c_alphabet := None |}.

(** cryptocurrencies.py:601-608 *)
Definition coin_Firo : coin := {| c_name := str "Firo";
  c_networks := [(str "mainnet", (0xd2, 0x52))];
  c_alphabet := None |}.

(** cryptocurrencies.py:611-618 *)
Definition coin_Firstcoin : coin := {| c_name := str "Firstcoin";
  c_networks := [(str "mainnet", (0xa3, 0x23))];
  c_alphabet := None |}.

(** cryptocurrencies.py:621-632 *)
Definition coin_FIX : coin := {| c_name := str "FIX";
  c_networks := [(str "mainnet", (0x3c, 0x23));
                 (str "testnet", (0xed, 0x4c))];
  c_alphabet := None |}.

(** cryptocurrencies.py:635-642 *)
Definition coin_Flashcoin : coin := {| c_name := str "Flashcoin";
  c_networks := [(str "mainnet", (0xc4, 0x44))];
  c_alphabet := None |}.

(** cryptocurrencies.py:645-652 *)
Definition coin_Flux : coin := {| c_name := str "Flux";
  c_networks := [(str "mainnet", (0x80, 0x1cb8))];
  c_alphabet := None |}.

(** cryptocurrencies.py:655-666 *)
Definition coin_Foxdcoin : coin := {| c_name := str "Foxdcoin";
  c_networks := [(str "mainnet", (0x80, 0x23));
                 (str "testnet", (0xef, 0x5f))];
  c_alphabet := None |}.

(** cryptocurrencies.py:669-676 *)
Definition coin_FujiCoin : coin := {| c_name := str "FujiCoin";
  c_networks := [(str "mainnet", (0xa4, 0x24))];
  c_alphabet := None |}.

(** cryptocurrencies.py:679-686 *)
Definition coin_GameCredits : coin := {| c_name := str "GameCredits";
  c_networks := [(str "mainnet", (0xa6, 0x26))];
  c_alphabet := None |}.

(** cryptocurrencies.py:689-696 *)
Definition coin_GCRCoin : coin := {| c_name := str "GCRCoin";
  c_networks := [(str "mainnet", (0x9a, 0x26))];
  c_alphabet := None |}.

(** cryptocurrencies.py:699-706 *)
Definition coin_GoByte : coin := {| c_name := str "GoByte";
  c_networks := [(str "mainnet", (0xc6, 0x26))];
  c_alphabet := None |}.

(** cryptocurrencies.py:709-716 *)
Definition coin_Gridcoin : coin := {| c_name := str "Gridcoin";
  c_networks := [(str "mainnet", (0xbe, 0x3e))];
  c_alphabet := None |}.

(** cryptocurrencies.py:719-730 *)
Definition coin_GroestlCoin : coin := {| c_name := str "GroestlCoin";
  c_networks := [(str "mainnet", (0x80, 0x24));
                 (str "testnet", (0xef, 0x6f))];
  c_alphabet := None |}.

(** cryptocurrencies.py:733-740 *)
Definition coin_Gulden : coin := {| c_name := str "Gulden";
  c_networks := [(str "mainnet", (0x62, 0x26))];
  c_alphabet := None |}.

(** cryptocurrencies.py:743-750 *)
Definition coin_Helleniccoin : coin := {| c_name := str "Helleniccoin";
  c_networks := [(str "mainnet", (0xb0, 0x30))];
  c_alphabet := None |}.

(** cryptocurrencies.py:753-760 *)
Definition coin_Hempcoin : coin := {| c_name := str "Hempcoin";
  c_networks := [(str "mainnet", (0xa8, 0x28))];
  c_alphabet := None |}.

(** cryptocurrencies.py:763-770 *)
Definition coin_Horizen : coin := {| c_name := str "Horizen";
  c_networks := [(str "mainnet", (0x80, 0x2089))];
  c_alphabet := None |}.

(** cryptocurrencies.py:773-780 *)
Definition coin_Hush : coin := {| c_name := str "Hush";
  c_networks := [(str "mainnet", (0x80, 0x1cb8))];
  c_alphabet := None |}.

(** cryptocurrencies.py:783-790 *)
Definition coin_InsaneCoin : coin := {| c_name := str "InsaneCoin";
  c_networks := [(str "mainnet", (0x37, 0x66))];
  c_alphabet := None |}.

(** cryptocurrencies.py:793-800 *)
Definition coin_InternetOfPeople : coin := {| c_name := str "InternetOfPeople";
  c_networks := [(str "mainnet", (0x31, 0x75))];
  c_alphabet := None |}.

(** cryptocurrencies.py:803-810 *)
Definition coin_IXCoin : coin := {| c_name := str "IXCoin";
  c_networks := [(str "mainnet", (0x80, 0x8a))];
  c_alphabet := None |}.

(** cryptocurrencies.py:813-820 *)
Definition coin_Jumbucks : coin := {| c_name := str "Jumbucks";
  c_networks := [(str "mainnet", (0xab, 0x2b))];
  c_alphabet := None |}.

(** cryptocurrencies.py:823-830 *)
Definition coin_Kobocoin : coin := {| c_name := str "Kobocoin";
  c_networks := [(str "mainnet", (0xa3, 0x23))];
  c_alphabet := None |}.

(** cryptocurrencies.py:833-840 *)
Definition coin_Komodo : coin := {| c_name := str "Komodo";
  c_networks := [(str "mainnet", (0xbc, 0x3c))];
  c_alphabet := None |}.

(** cryptocurrencies.py:843-850 *)
Definition coin_Landcoin : coin := {| c_name := str "Landcoin";
  c_networks := [(str "mainnet", (0xb0, 0x30))];
  c_alphabet := None |}.

(** cryptocurrencies.py:853-860 *)
Definition coin_LBRYCredits : coin := {| c_name := str "LBRYCredits";
  c_networks := [(str "mainnet", (0x1c, 0x55))];
  c_alphabet := None |}.

(** cryptocurrencies.py:863-870 *)
Definition coin_Linx : coin := {| c_name := str "Linx";
  c_networks := [(str "mainnet", (0xcb, 0x4b))];
  c_alphabet := None |}.

(** cryptocurrencies.py:873-884 *)
Definition coin_Litecoin : coin := {| c_name := str "Litecoin";
  c_networks := [(str "mainnet", (0xb0, 0x30));
                 (str "testnet", (0xef, 0x6f))];
  c_alphabet := None |}.

(** cryptocurrencies.py:887-894 *)
Definition coin_LitecoinCash : coin := {| c_name := str "LitecoinCash";
  c_networks := [(str "mainnet", (0xb0, 0x1c))];
  c_alphabet := None |}.

(** cryptocurrencies.py:897-904 *)
Definition coin_LitecoinZ : coin := {| c_name := str "LitecoinZ";
  c_networks := [(str "mainnet", (0x80, 0xab3))];
  c_alphabet := None |}.

(** cryptocurrencies.py:907-914 *)
Definition coin_Lkrcoin : coin := {| c_name := str "Lkrcoin";
  c_networks := [(str "mainnet", (0xb0, 0x30))];
  c_alphabet := None |}.

(** cryptocurrencies.py:917-924 *)
Definition coin_Lynx : coin := {| c_name := str "Lynx";
  c_networks := [(str "mainnet", (0xad, 0x2d))];
  c_alphabet := None |}.

(** cryptocurrencies.py:927-934 *)
Definition coin_Mazacoin : coin := {| c_name := str "Mazacoin";
  c_networks := [(str "mainnet", (0xe0, 0x32))];
  c_alphabet := None |}.

(** cryptocurrencies.py:937-944 *)
Definition coin_Megacoin : coin := {| c_name := str "Megacoin";
  c_networks := [(str "mainnet", (0xb2, 0x32))];
  c_alphabet := None |}.

(** cryptocurrencies.py:947-954 *)
Definition coin_Minexcoin : coin := {| c_name := str "Minexcoin";
  c_networks := [(str "mainnet", (0x80, 0x4b))];
  c_alphabet := None |}.

(** cryptocurrencies.py:957-964 *)
Definition coin_Monacoin : coin := {| c_name := str "Monacoin";
  c_networks := [(str "mainnet", (0xb0, 0x32))];
  c_alphabet := None |}.

(** cryptocurrencies.py:967-974 *)
Definition coin_Monk : coin := {| c_name := str "Monk";
  c_networks := [(str "mainnet", (0x37, 0x33))];
  c_alphabet := None |}.

(** cryptocurrencies.py:977-984 *)
Definition coin_Myriadcoin : coin := {| c_name := str "Myriadcoin";
  c_networks := [(str "mainnet", (0xb2, 0x32))];
  c_alphabet := None |}.

(** cryptocurrencies.py:987-994 *)
Definition coin_Namecoin : coin := {| c_name := str "Namecoin";
  c_networks := [(str "mainnet", (0x80, 0x34))];
  c_alphabet := None |}.

(** cryptocurrencies.py:997-1004 *)
Definition coin_Navcoin : coin := {| c_name := str "Navcoin";
  c_networks := [(str "mainnet", (0x96, 0x35))];
  c_alphabet := None |}.

(** cryptocurrencies.py:1007-1014 *)
Definition coin_Neblio : coin := {| c_name := str "Neblio";
  c_networks := [(str "mainnet", (0xb5, 0x35))];
  c_alphabet := None |}.

(** cryptocurrencies.py:1017-1024 *)
Definition coin_Neoscoin : coin := {| c_name := str "Neoscoin";
  c_networks := [(str "mainnet", (0xb1, 0x35))];
  c_alphabet := None |}.

(** cryptocurrencies.py:1027-1034 *)
Definition coin_Neurocoin : coin := {| c_name := str "Neurocoin";
  c_networks := [(str "mainnet", (0xb5, 0x35))];
  c_alphabet := None |}.

(** cryptocurrencies.py:1037-1044 *)
Definition coin_NewYorkCoin : coin := {| c_name := str "NewYorkCoin";
  c_networks := [(str "mainnet", (0xbc, 0x3c))];
  c_alphabet := None |}.

(** cryptocurrencies.py:1047-1054 *)
Definition coin_NIX : coin := {| c_name := str "NIX";
  c_networks := [(str "mainnet", (0x80, 0x26))];
  c_alphabet := None |}.

(** cryptocurrencies.py:1057-1064 *)
Definition coin_Novacoin : coin := {| c_name := str "Novacoin";
  c_networks := [(str "mainnet", (0x88, 0x8))];
  c_alphabet := None |}.

(** cryptocurrencies.py:1067-1074 *)
Definition coin_NuBits : coin := {| c_name := str "NuBits";
  c_networks := [(str "mainnet", (0x96, 0x19))];
  c_alphabet := None |}.

(** cryptocurrencies.py:1077-1084 *)
Definition coin_NuShares : coin := {| c_name := str "NuShares";
  c_networks := [(str "mainnet", (0x95, 0x3f))];
  c_alphabet := None |}.

(** cryptocurrencies.py:1087-1094 *)
Definition coin_OKCash : coin := {| c_name := str "OKCash";
  c_networks := [(str "mainnet", (0x3, 0x37))];
  c_alphabet := None |}.

(** cryptocurrencies.py:1097-1108 *)
Definition coin_Omni : coin := {| c_name := str "Omni";
  c_networks := [(str "mainnet", (0x80, 0x0));
                 (str "testnet", (0xef, 0x6f))];
  c_alphabet := None |}.

(** cryptocurrencies.py:1111-1118 *)
Definition coin_Onix : coin := {| c_name := str "Onix";
  c_networks := [(str "mainnet", (0xcb, 0x4b))];
  c_alphabet := None |}.

(** cryptocurrencies.py:1121-1128 *)
Definition coin_Particl : coin := {| c_name := str "Particl";
  c_networks := [(str "mainnet", (0x6c, 0x38))];
  c_alphabet := None |}.

(** cryptocurrencies.py:1131-1138 *)
Definition coin_Peercoin : coin := {| c_name := str "Peercoin";
  c_networks := [(str "mainnet", (0xb7, 0x37))];
  c_alphabet := None |}.

(** cryptocurrencies.py:1141-1148 *)
Definition coin_Pesobit : coin := {| c_name := str "Pesobit";
  c_networks := [(str "mainnet", (0xb7, 0x37))];
  c_alphabet := None |}.

(** cryptocurrencies.py:1151-1158 *)
Definition coin_Phore : coin := {| c_name := str "Phore";
  c_networks := [(str "mainnet", (0xd4, 0x37))];
  c_alphabet := None |}.

(** cryptocurrencies.py:1161-1168 *)
Definition coin_Pinkcoin : coin := {| c_name := str "Pinkcoin";
  c_networks := [(str "mainnet", (0x83, 0x3))];
  c_alphabet := None |}.

(** cryptocurrencies.py:1171-1182 *)
Definition coin_Pivx : coin := {| c_name := str "Pivx";
  c_networks := [(str "mainnet", (0xd4, 0x1e));
                 (str "testnet", (0xef, 0x8b))];
  c_alphabet := None |}.

(** cryptocurrencies.py:1185-1192 *)
Definition coin_PoSWCoin : coin := {| c_name := str "PoSWCoin";
  c_networks := [(str "mainnet", (0xb7, 0x37))];
  c_alphabet := None |}.

(** cryptocurrencies.py:1195-1202 *)
Definition coin_Potcoin : coin := {| c_name := str "Potcoin";
  c_networks := [(str "mainnet", (0xb7, 0x37))];
  c_alphabet := None |}.

(** cryptocurrencies.py:1205-1212 *)
Definition coin_ProjectCoin : coin := {| c_name := str "ProjectCoin";
  c_networks := [(str "mainnet", (0x75, 0x37))];
  c_alphabet := None |}.

(** cryptocurrencies.py:1215-1222 *)
Definition coin_Putincoin : coin := {| c_name := str "Putincoin";
  c_networks := [(str "mainnet", (0xb7, 0x37))];
  c_alphabet := None |}.

(** cryptocurrencies.py:1225-1236 *)
Definition coin_Qtum : coin := {| c_name := str "Qtum";
  c_networks := [(str "mainnet", (0x80, 0x3a));
                 (str "testnet", (0xef, 0x78))];
  c_alphabet := None |}.

(** cryptocurrencies.py:1239-1246 *)
Definition coin_Rapids : coin := {| c_name := str "Rapids";
  c_networks := [(str "mainnet", (0x2e, 0x3d))];
  c_alphabet := None |}.

(** cryptocurrencies.py:1249-1260 *)
Definition coin_Ravencoin : coin := {| c_name := str "Ravencoin";
  c_networks := [(str "mainnet", (0x80, 0x3c));
                 (str "testnet", (0x80, 0x6f))];
  c_alphabet := None |}.

(** cryptocurrencies.py:1263-1270 *)
Definition coin_Reddcoin : coin := {| c_name := str "Reddcoin";
  c_networks := [(str "mainnet", (0xbd, 0x3d))];
  c_alphabet := None |}.

(** cryptocurrencies.py:1273-1281 *)
Definition coin_Ripple : coin := {| c_name := str "Ripple";
  c_networks := [(str "mainnet", (0x80, 0x0))];
  c_alphabet := Some (str "rpshnaf39wBUDNEGHJKLM4PQRST7VWXYZ2bcdeCg65jkm8oFqi1tuvAxyz") |}.

(** cryptocurrencies.py:1284-1291 *)
Definition coin_Ritocoin : coin := {| c_name := str "Ritocoin";
  c_networks := [(str "mainnet", (0x8b, 0x19))];
  c_alphabet := None |}.

(** cryptocurrencies.py:1294-1305 *)
Definition coin_RSK : coin := {| c_name := str "RSK";
  c_networks := [(str "mainnet", (0x80, 0x0));
                 (str "testnet", (0xef, 0x6f))];
  c_alphabet := None |}.

(** cryptocurrencies.py:1308-1315 *)
Definition coin_Rubycoin : coin := {| c_name := str "Rubycoin";
  c_networks := [(str "mainnet", (0xbc, 0x3c))];
  c_alphabet := None |}.

(** cryptocurrencies.py:1318-1325 *)
Definition coin_Safecoin : coin := {| c_name := str "Safecoin";
  c_networks := [(str "mainnet", (0xbd, 0x3d))];
  c_alphabet := None |}.

(** cryptocurrencies.py:1328-1335 *)
Definition coin_Saluscoin : coin := {| c_name := str "Saluscoin";
  c_networks := [(str "mainnet", (0xbf, 0x3f))];
  c_alphabet := None |}.

(** cryptocurrencies.py:1338-1345 *)
Definition coin_Scribe : coin := {| c_name := str "Scribe";
  c_networks := [(str "mainnet", (0x6e, 0x3c))];
  c_alphabet := None |}.

(** cryptocurrencies.py:1348-1359 *)
Definition coin_ShadowCash : coin := {| c_name := str "ShadowCash";
  c_networks := [(str "mainnet", (0xbf, 0x3f));
                 (str "testnet", (0xff, 0x7f))];
  c_alphabet := None |}.

(** cryptocurrencies.py:1362-1373 *)
Definition coin_Slimcoin : coin := {| c_name := str "Slimcoin";
  c_networks := [(str "mainnet", (0x46, 0x3f));
                 (str "testnet", (0x57, 0x6f))];
  c_alphabet := None |}.

(** cryptocurrencies.py:1376-1383 *)
Definition coin_Smileycoin : coin := {| c_name := str "Smileycoin";
  c_networks := [(str "mainnet", (0x5, 0x19))];
  c_alphabet := None |}.

(** cryptocurrencies.py:1386-1393 *)
Definition coin_Solarcoin : coin := {| c_name := str "Solarcoin";
  c_networks := [(str "mainnet", (0x92, 0x12))];
  c_alphabet := None |}.

(** cryptocurrencies.py:1396-1407 *)
Definition coin_Stash : coin := {| c_name := str "Stash";
  c_networks := [(str "mainnet", (0xcc, 0x4c));
                 (str "testnet", (0xef, 0x8c))];
  c_alphabet := None |}.

(** cryptocurrencies.py:1410-1421 *)
Definition coin_Stratis : coin := {| c_name := str "Stratis";
  c_networks := [(str "mainnet", (0xbf, 0x3f));
                 (str "testnet", (0xbf, 0x41))];
  c_alphabet := None |}.

(** cryptocurrencies.py:1424-1435 *)
Definition coin_Sugarchain : coin := {| c_name := str "Sugarchain";
  c_networks := [(str "mainnet", (0x80, 0x3f));
                 (str "testnet", (0xef, 0x42))];
  c_alphabet := None |}.

(** cryptocurrencies.py:1438-1445 *)
Definition coin_Syscoin : coin := {| c_name := str "Syscoin";
  c_networks := [(str "mainnet", (0x80, 0x3f))];
  c_alphabet := None |}.

(** cryptocurrencies.py:1448-1455 *)
Definition coin_ThoughtAI : coin := {| c_name := str "ThoughtAI";
  c_networks := [(str "mainnet", (0x7b, 0x7))];
  c_alphabet := None |}.

(** cryptocurrencies.py:1458-1465 *)
Definition coin_TOACoin : coin := {| c_name := str "TOACoin";
  c_networks := [(str "mainnet", (0xc1, 0x41))];
  c_alphabet := None |}.

(** cryptocurrencies.py:1468-1479 *)
Definition coin_TWINS : coin := {| c_name := str "TWINS";
  c_networks := [(str "mainnet", (0x42, 0x49));
                 (str "testnet", (0xed, 0x4c))];
  c_alphabet := None |}.

(** cryptocurrencies.py:1482-1489 *)
Definition coin_UltimateSecureCash : coin := {| c_name := str "UltimateSecureCash";
  c_networks := [(str "mainnet", (0xbf, 0x44))];
  c_alphabet := None |}.

(** cryptocurrencies.py:1492-1499 *)
Definition coin_Unobtanium : coin := {| c_name := str "Unobtanium";
  c_networks := [(str "mainnet", (0xe0, 0x82))];
  c_alphabet := None |}.

(** cryptocurrencies.py:1502-1509 *)
Definition coin_Vcash : coin := {| c_name := str "Vcash";
  c_networks := [(str "mainnet", (0xc7, 0x47))];
  c_alphabet := None |}.

(** cryptocurrencies.py:1512-1519 *)
Definition coin_Verge : coin := {| c_name := str "Verge";
  c_networks := [(str "mainnet", (0x9e, 0x1e))];
  c_alphabet := None |}.

(** cryptocurrencies.py:1522-1529 *)
Definition coin_Vertcoin : coin := {| c_name := str "Vertcoin";
  c_networks := [(str "mainnet", (0x80, 0x47))];
  c_alphabet := None |}.

(** cryptocurrencies.py:1532-1543 *)
Definition coin_Viacoin : coin := {| c_name := str "Viacoin";
  c_networks := [(str "mainnet", (0xc7, 0x47));
                 (str "testnet", (0xff, 0x7f))];
  c_alphabet := None |}.

(** cryptocurrencies.py:1546-1553 *)
Definition coin_Vivo : coin := {| c_name := str "Vivo";
  c_networks := [(str "mainnet", (0xc6, 0x46))];
  c_alphabet := None |}.

(** cryptocurrencies.py:1556-1563 *)
Definition coin_Voxels : coin := {| c_name := str "Voxels";
  c_networks := [(str "mainnet", (0xc6, 0x46))];
  c_alphabet := None |}.

(** cryptocurrencies.py:1566-1573 *)
Definition coin_VirtualCash : coin := {| c_name := str "VirtualCash";
  c_networks := [(str "mainnet", (0xc7, 0x47))];
  c_alphabet := None |}.

(** cryptocurrencies.py:1576-1583 *)
Definition coin_Wagerr : coin := {| c_name := str "Wagerr";
  c_networks := [(str "mainnet", (0xc7, 0x49))];
  c_alphabet := None |}.

(** cryptocurrencies.py:1586-1593 *)
Definition coin_Whitecoin : coin := {| c_name := str "Whitecoin";
  c_networks := [(str "mainnet", (0xc9, 0x49))];
  c_alphabet := None |}.

(** cryptocurrencies.py:1596-1603 *)
Definition coin_Wincoin : coin := {| c_name := str "Wincoin";
  c_networks := [(str "mainnet", (0xc9, 0x49))];
  c_alphabet := None |}.

(** cryptocurrencies.py:1606-1613 *)
Definition coin_XUEZ : coin := {| c_name := str "XUEZ";
  c_networks := [(str "mainnet", (0xd4, 0x4b))];
  c_alphabet := None |}.

(** cryptocurrencies.py:1616-1623 *)
Definition coin_Ycash : coin := {| c_name := str "Ycash";
  c_networks := [(str "mainnet", (0x80, 0x1c28))];
  c_alphabet := None |}.

(** cryptocurrencies.py:1626-1637 *)
Definition coin_Zcash : coin := {| c_name := str "Zcash";
  c_networks := [(str "mainnet", (0x80, 0x1cb8));
                 (str "testnet", (0xef, 0x1d25))];
  c_alphabet := None |}.

(** cryptocurrencies.py:1640-1647 *)
Definition coin_ZClassic : coin := {| c_name := str "ZClassic";
  c_networks := [(str "mainnet", (0x80, 0x1cb8))];
  c_alphabet := None |}.

(** cryptocurrencies.py:1650-1657 *)
Definition coin_Zetacoin : coin := {| c_name := str "Zetacoin";
  c_networks := [(str "mainnet", (0xe0, 0x50))];
  c_alphabet := None |}.

(** cryptocurrencies.py:1660-1667 *)
Definition coin_ZooBC : coin := {| c_name := str "ZooBC";
  c_networks := [(str "mainnet", (0x80, 0x0))];
  c_alphabet := None |}.

(** all classes, in source order *)
Definition all_coins : list coin :=
  [coin_Adcoin;
   coin_Anon;
   coin_Argoneum;
   coin_Artax;
   coin_Aryacoin;
   coin_Asiacoin;
   coin_Auroracoin;
   coin_Avian;
   coin_Axe;
   coin_Bata;
   coin_BeetleCoin;
   coin_BelaCoin;
   coin_BitCloud;
   coin_Bitcoin;
   coin_BitcoinAtom;
   coin_BitcoinGold;
   coin_BitcoinGreen;
   coin_BitcoinPlus;
   coin_BitcoinPrivate;
   coin_BitcoinSV;
   coin_BitcoinZ;
   coin_Bitcore;
   coin_BitSend;
   coin_Blackcoin;
   coin_Blocknode;
   coin_BlockStamp;
   coin_Bolivarcoin;
   coin_BritCoin;
   coin_CanadaeCoin;
   coin_Cannacoin;
   coin_Clams;
   coin_ClubCoin;
   coin_Compcoin;
   coin_CPUChain;
   coin_CranePay;
   coin_Crave;
   coin_Dash;
   coin_DeepOnion;
   coin_Defcoin;
   coin_Denarius;
   coin_Diamond;
   coin_DigiByte;
   coin_Digitalcoin;
   coin_Divi;
   coin_Dogecoin;
   coin_Ecoin;
   coin_EDRCoin;
   coin_eGulden;
   coin_Einsteinium;
   coin_Elastos;
   coin_Energi;
   coin_EuropeCoin;
   coin_Evrmore;
   coin_ExclusiveCoin;
   coin_Feathercoin;
   coin_Firo;
   coin_Firstcoin;
   coin_FIX;
   coin_Flashcoin;
   coin_Flux;
   coin_Foxdcoin;
   coin_FujiCoin;
   coin_GameCredits;
   coin_GCRCoin;
   coin_GoByte;
   coin_Gridcoin;
   coin_GroestlCoin;
   coin_Gulden;
   coin_Helleniccoin;
   coin_Hempcoin;
   coin_Horizen;
   coin_Hush;
   coin_InsaneCoin;
   coin_InternetOfPeople;
   coin_IXCoin;
   coin_Jumbucks;
   coin_Kobocoin;
   coin_Komodo;
   coin_Landcoin;
   coin_LBRYCredits;
   coin_Linx;
   coin_Litecoin;
   coin_LitecoinCash;
   coin_LitecoinZ;
   coin_Lkrcoin;
   coin_Lynx;
   coin_Mazacoin;
   coin_Megacoin;
   coin_Minexcoin;
   coin_Monacoin;
   coin_Monk;
   coin_Myriadcoin;
   coin_Namecoin;
   coin_Navcoin;
   coin_Neblio;
   coin_Neoscoin;
   coin_Neurocoin;
   coin_NewYorkCoin;
   coin_NIX;
   coin_Novacoin;
   coin_NuBits;
   coin_NuShares;
   coin_OKCash;
   coin_Omni;
   coin_Onix;
   coin_Particl;
   coin_Peercoin;
   coin_Pesobit;
   coin_Phore;
   coin_Pinkcoin;
   coin_Pivx;
   coin_PoSWCoin;
   coin_Potcoin;
   coin_ProjectCoin;
   coin_Putincoin;
   coin_Qtum;
   coin_Rapids;
   coin_Ravencoin;
   coin_Reddcoin;
   coin_Ripple;
   coin_Ritocoin;
   coin_RSK;
   coin_Rubycoin;
   coin_Safecoin;
   coin_Saluscoin;
   coin_Scribe;
   coin_ShadowCash;
   coin_Slimcoin;
   coin_Smileycoin;
   coin_Solarcoin;
   coin_Stash;
   coin_Stratis;
   coin_Sugarchain;
   coin_Syscoin;
   coin_ThoughtAI;
   coin_TOACoin;
   coin_TWINS;
   coin_UltimateSecureCash;
   coin_Unobtanium;
   coin_Vcash;
   coin_Verge;
   coin_Vertcoin;
   coin_Viacoin;
   coin_Vivo;
   coin_Voxels;
   coin_VirtualCash;
   coin_Wagerr;
   coin_Whitecoin;
   coin_Wincoin;
   coin_XUEZ;
   coin_Ycash;
   coin_Zcash;
   coin_ZClassic;
   coin_Zetacoin;
   coin_ZooBC].
