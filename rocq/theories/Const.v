(** * Const: /repo/bip38/const.py *)
From Verif Require Import Py.

(** const.py:12-13 *)
Definition NO_EC_MULTIPLIED_PRIVATE_KEY_PREFIX : Z := 0x0142.
Definition EC_MULTIPLIED_PRIVATE_KEY_PREFIX : Z := 0x0143.
(** const.py:15-16 *)
Definition NO_EC_MULTIPLIED_WIF_FLAG : Z := 0xc0.
Definition NO_EC_MULTIPLIED_WIF_COMPRESSED_FLAG : Z := 0xe0.
(** const.py:18-19 *)
Definition MAGIC_LOT_AND_SEQUENCE : Z := 0x2ce9b3e1ff39e251.
Definition MAGIC_NO_LOT_AND_SEQUENCE : Z := 0x2ce9b3e1ff39e253.
(** const.py:21-24 *)
Definition MAGIC_LOT_AND_SEQUENCE_UNCOMPRESSED_FLAG : Z := 0x04.
Definition MAGIC_LOT_AND_SEQUENCE_COMPRESSED_FLAG : Z := 0x24.
Definition MAGIC_NO_LOT_AND_SEQUENCE_UNCOMPRESSED_FLAG : Z := 0x00.
Definition MAGIC_NO_LOT_AND_SEQUENCE_COMPRESSED_FLAG : Z := 0x20.
(** const.py:26 *)
Definition CONFIRMATION_CODE_PREFIX : Z := 0x643bf6a89a.
(** const.py:28 *)
Definition N_order : Z := 0xFFFFFFFFFFFFFFFFFFFFFFFFFFFFFFFEBAAEDCE6AF48A03BBFD25E8CD0364141.
(** const.py:30 *)
Definition COORDINATE_POINT_LENGTH : nat := 32.
(** const.py:32-34 *)
Definition PRIVATE_KEY_LENGTH : Z := 32.
Definition UNCOMPRESSED_PRIVATE_KEY_PREFIX : Z := 0x00.
Definition COMPRESSED_PRIVATE_KEY_PREFIX : Z := 0x01.
(** const.py:36-40 *)
Definition COMPRESSED_PUBLIC_KEY_LENGTH : Z := 33.
Definition UNCOMPRESSED_PUBLIC_KEY_LENGTH : Z := 65.
Definition EVEN_COMPRESSED_PUBLIC_KEY_PREFIX : Z := 0x02.
Definition ODD_COMPRESSED_PUBLIC_KEY_PREFIX : Z := 0x03.
Definition UNCOMPRESSED_PUBLIC_KEY_PREFIX : Z := 0x04.
(** const.py:42 *)
Definition CHECKSUM_BYTE_LENGTH : nat := 4.
(** const.py:44 *)
Definition WIF_TYPES : list pystr := [str "wif"; str "wif-compressed"].
(** const.py:46 *)
Definition PUBLIC_KEY_TYPES : list pystr := [str "uncompressed"; str "compressed"].
(** const.py:48-64, the FLAGS dict, one definition per key *)
Definition FLAGS_compression : list Z :=
  [MAGIC_NO_LOT_AND_SEQUENCE_COMPRESSED_FLAG; MAGIC_LOT_AND_SEQUENCE_COMPRESSED_FLAG;
   0x28; 0x2c; 0x30; 0x34; 0x38; 0x3c; 0xe0; 0xe8; 0xf0; 0xf8].
Definition FLAGS_lot_and_sequence : list Z :=
  [MAGIC_LOT_AND_SEQUENCE_UNCOMPRESSED_FLAG; MAGIC_LOT_AND_SEQUENCE_COMPRESSED_FLAG;
   0x0c; 0x14; 0x1c; 0x2c; 0x34; 0x3c].
Definition FLAGS_non_ec : list Z :=
  [NO_EC_MULTIPLIED_WIF_FLAG; NO_EC_MULTIPLIED_WIF_COMPRESSED_FLAG;
   0xc8; 0xd0; 0xd8; 0xe8; 0xf0; 0xf8].
Definition FLAGS_ec : list Z :=
  [0x00; 0x04; 0x08; 0x0c; 0x10; 0x14; 0x18; 0x1c;
   0x20; 0x24; 0x28; 0x2c; 0x30; 0x34; 0x38; 0x3c].
Definition FLAGS_illegal : list Z :=
  [0xc4; 0xcc; 0xd4; 0xdc; 0xe4; 0xec; 0xf4; 0xfc].
