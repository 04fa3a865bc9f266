(** * SpecLetters: how many characters the WIFs and addresses of each network have and
    with which characters they can begin.  A table to read, written by
    tools/gen_letters.py; PropLetters.v proves it.  Nothing here refers to the model. *)
From Verif Require Import Py Spec.

(** [s] has [n] characters and begins with one of [letters]. *)
Definition looks_like (s : pystr) (n : Z) (letters : string) : Prop :=
  zlen s = n /\ exists c rest, In c (str letters) /\ s = c :: rest.
Local Open Scope string_scope. Local Open Scope Z_scope.

(** WIF prefix; uncompressed and compressed WIFs *)
Definition wif_looks : list (Z * ((Z * string) * (Z * string))) :=
  [(0x03, ((50, "678"), (51, "STUVWXYZab")));
   (0x05, ((50, "ABC"), (51, "jkmnopqrst")));
   (0x1c, ((50, "wxy"), (52, "5")));
   (0x2e, ((51, "2"), (52, "7")));
   (0x31, ((51, "2"), (52, "8")));
   (0x37, ((51, "2"), (52, "9")));
   (0x3c, ((51, "3"), (52, "9A")));
   (0x42, ((51, "3"), (52, "A")));
   (0x46, ((51, "3"), (52, "B")));
   (0x4b, ((51, "3"), (52, "C")));
   (0x57, ((51, "3"), (52, "DE")));
   (0x62, ((51, "4"), (52, "F")));
   (0x6a, ((51, "4"), (52, "G")));
   (0x6c, ((51, "4"), (52, "GH")));
   (0x6e, ((51, "4"), (52, "H")));
   (0x75, ((51, "4"), (52, "J")));
   (0x7b, ((51, "5"), (52, "K")));
   (0x80, ((51, "5"), (52, "KL")));
   (0x83, ((51, "5"), (52, "L")));
   (0x85, ((51, "5"), (52, "L")));
   (0x88, ((51, "5"), (52, "M")));
   (0x89, ((51, "5"), (52, "M")));
   (0x8b, ((51, "5"), (52, "M")));
   (0x8e, ((51, "5"), (52, "N")));
   (0x92, ((51, "5"), (52, "N")));
   (0x95, ((51, "56"), (52, "P")));
   (0x96, ((51, "6"), (52, "P")));
   (0x97, ((51, "6"), (52, "P")));
   (0x99, ((51, "6"), (52, "P")));
   (0x9a, ((51, "6"), (52, "P")));
   (0x9c, ((51, "6"), (52, "Q")));
   (0x9e, ((51, "6"), (52, "Q")));
   (0x9f, ((51, "6"), (52, "Q")));
   (0xa1, ((51, "6"), (52, "Q")));
   (0xa3, ((51, "6"), (52, "R")));
   (0xa4, ((51, "6"), (52, "R")));
   (0xa6, ((51, "6"), (52, "R")));
   (0xa8, ((51, "6"), (52, "R")));
   (0xab, ((51, "6"), (52, "S")));
   (0xad, ((51, "6"), (52, "S")));
   (0xb0, ((51, "6"), (52, "T")));
   (0xb1, ((51, "6"), (52, "T")));
   (0xb2, ((51, "6"), (52, "T")));
   (0xb5, ((51, "7"), (52, "T")));
   (0xb7, ((51, "7"), (52, "U")));
   (0xbc, ((51, "7"), (52, "U")));
   (0xbd, ((51, "7"), (52, "UV")));
   (0xbe, ((51, "7"), (52, "V")));
   (0xbf, ((51, "7"), (52, "V")));
   (0xc1, ((51, "7"), (52, "V")));
   (0xc4, ((51, "7"), (52, "VW")));
   (0xc6, ((51, "7"), (52, "W")));
   (0xc7, ((51, "7"), (52, "W")));
   (0xc9, ((51, "7"), (52, "W")));
   (0xcb, ((51, "7"), (52, "X")));
   (0xcc, ((51, "7"), (52, "X")));
   (0xd2, ((51, "8"), (52, "Y")));
   (0xd4, ((51, "8"), (52, "Y")));
   (0xd5, ((51, "8"), (52, "Y")));
   (0xda, ((51, "8"), (52, "Z")));
   (0xdc, ((51, "8"), (52, "Z")));
   (0xdd, ((51, "8"), (52, "Z")));
   (0xe0, ((51, "8"), (52, "a")));
   (0xed, ((51, "8"), (52, "c")));
   (0xef, ((51, "9"), (52, "c")));
   (0xf1, ((51, "9"), (52, "c")));
   (0xff, ((51, "9"), (52, "e")))].
(** address prefix other than 0 (for which see C79_address_zero); addresses *)
Definition address_looks : list (Z * (Z * string)) :=
  [(0x03, (34, "2"));
   (0x07, (34, "34"));
   (0x08, (34, "4"));
   (0x0e, (34, "67"));
   (0x12, (34, "8"));
   (0x17, (34, "A"));
   (0x19, (34, "B"));
   (0x1a, (34, "B"));
   (0x1c, (34, "C"));
   (0x1e, (34, "D"));
   (0x1f, (34, "D"));
   (0x21, (34, "E"));
   (0x23, (34, "F"));
   (0x24, (34, "F"));
   (0x26, (34, "G"));
   (0x28, (34, "H"));
   (0x2b, (34, "J"));
   (0x2d, (34, "K"));
   (0x30, (34, "L"));
   (0x32, (34, "M"));
   (0x33, (34, "M"));
   (0x34, (34, "MN"));
   (0x35, (34, "N"));
   (0x37, (34, "P"));
   (0x38, (34, "P"));
   (0x3a, (34, "Q"));
   (0x3c, (34, "R"));
   (0x3d, (34, "R"));
   (0x3e, (34, "RS"));
   (0x3f, (34, "S"));
   (0x41, (34, "T"));
   (0x42, (34, "T"));
   (0x44, (34, "U"));
   (0x46, (34, "V"));
   (0x47, (34, "V"));
   (0x49, (34, "W"));
   (0x4b, (34, "X"));
   (0x4c, (34, "X"));
   (0x50, (34, "Z"));
   (0x52, (34, "Za"));
   (0x55, (34, "b"));
   (0x5a, (34, "d"));
   (0x5c, (34, "e"));
   (0x5d, (34, "e"));
   (0x5f, (34, "f"));
   (0x66, (34, "i"));
   (0x6f, (34, "mn"));
   (0x71, (34, "n"));
   (0x75, (34, "p"));
   (0x78, (34, "q"));
   (0x7f, (34, "t"));
   (0x82, (34, "u"));
   (0x89, (34, "x"));
   (0x8a, (34, "x"));
   (0x8b, (34, "xy"));
   (0x8c, (34, "y"));
   (0x582, (35, "A"));
   (0xab3, (35, "L"));
   (0x1325, (35, "b"));
   (0x1957, (35, "n"));
   (0x1c28, (35, "s"));
   (0x1cb8, (35, "t"));
   (0x1d25, (35, "t"));
   (0x2089, (35, "z"))].
