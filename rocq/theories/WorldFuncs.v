(** * WorldFuncs: the functions of wif.py and the methods of P2PKHAddress in a
    process that changes the coins' tables.

    A default argument of a Python function, and an attribute in the body of a
    class, is evaluated once, when the module is imported.  So
    [encode_wif] and [decode_wif] (wif.py:30, 60) keep the prefix that Bitcoin's
    "mainnet" had at import, and [P2PKHAddress.address_prefix]
    (p2pkh_address.py:25) keeps the address prefix it had then - unless that
    attribute is assigned.  The defaults of [private_key_to_wif],
    [wif_to_private_key], [get_wif_type] and [get_wif_checksum] (wif.py:98-101,
    128, 150, 172) are the class Bitcoin and the name "mainnet": the table is
    read when they are called (wif.py:122, 145, 167, 189).

    Simplifications: those of Worlds.v; Bitcoin is class number 0; the attribute
    [P2PKHAddress.alphabet] is not assigned. *)
From Verif Require Import Py Prims Const Cryptocurrencies P2PKHAddress Wif Bip38 History Worlds.

(** The process: Worlds.v's, and the values fixed at import *)
Record fworld := { inner : world; default_wif_prefix : Z; class_address_prefix : Z }.

Inductive fop :=
| Do (o : wop)                                                          (* an operation of Worlds.v *)
| EncodeWif (key : pyarg) (prefix : option Z)                           (* encode_wif(key[, wif_prefix]) *)
| DecodeWif (s : pystr) (prefix : option Z)                             (* decode_wif(s[, wif_prefix]) *)
| ToWif (key : pyarg) (kind : option pystr) (k : option nat) (n : option pystr) (* private_key_to_wif(key[, wif_type][, cryptocurrency][, network]) *)
| ToKey (s : pystr) (k : option nat) (n : option pystr)                 (* wif_to_private_key *)
| WifType (s : pystr) (k : option nat) (n : option pystr)               (* get_wif_type *)
| WifChecksum (s : pystr) (k : option nat) (n : option pystr)           (* get_wif_checksum *)
| Address (key : pubkey_arg) (prefix : option Z) (kind al : option pystr) (* P2PKHAddress.encode *)
| ReadAddress (s : pystr) (prefix : option Z) (al : option pystr)       (* P2PKHAddress.decode *)
| SetAddressPrefix (a : Z).                                             (* P2PKHAddress.address_prefix = a *)

Inductive foutcome :=
| FDo (x : bytes * woutcome) | FPair (r : res (pystr * pystr)) | FParts (r : res (bytes * pystr * bytes)) | FText (r : res pystr) | FDone.

(** The import of the package: wif.py:30, 60 and p2pkh_address.py:25 look up
    Bitcoin.NETWORKS["mainnet"]. *)
Definition imported (cs : nat -> coin) : res fworld :=
  let* w := wif_prefix_of (cs 0%nat) (str "mainnet") in
  let* a := address_prefix_of (cs 0%nat) (str "mainnet") in
  Ok {| inner := fresh cs; default_wif_prefix := w; class_address_prefix := a |}.

Definition fexec (P : prims) (source : nat -> byte) (F : fworld) (o : fop) : fworld * foutcome :=
  let class k := classes (inner F) (default 0%nat k) in
  let net n := default (str "mainnet") n in
  match o with
  | Do o => let (W, x) := wexec P source (inner F) o in
      ({| inner := W; default_wif_prefix := default_wif_prefix F; class_address_prefix := class_address_prefix F |}, FDo x)
  | EncodeWif key p => (F, FPair (encode_wif P key (default (default_wif_prefix F) p)))
  | DecodeWif s p => (F, FParts (decode_wif s (default (default_wif_prefix F) p)))
  | ToWif key t k n => (F, FText (private_key_to_wif P key (default (str "wif-compressed") t) (class k) (net n)))
  | ToKey s k n => (F, FText (wif_to_private_key s (class k) (net n)))
  | WifType s k n => (F, FText (get_wif_type s (class k) (net n)))
  | WifChecksum s k n => (F, FText (get_wif_checksum s (class k) (net n)))
  | Address key p t al => (F, FText (P2PKH_encode P key (Some (default (class_address_prefix F) p)) t al))
  | ReadAddress s p al => (F, FText (P2PKH_decode P s (Some (default (class_address_prefix F) p)) al))
  | SetAddressPrefix a => ({| inner := inner F; default_wif_prefix := default_wif_prefix F; class_address_prefix := a |}, FDone)
  end.
Fixpoint frun (P : prims) (source : nat -> byte) (F : fworld) (h : list fop) : fworld * list foutcome :=
  match h with
  | [] => (F, [])
  | o :: r => let (F1, x) := fexec P source F o in
              let (F2, l) := frun P source F1 r in (F2, x :: l)
  end.
(** The outcomes of a process that imports the package and does [h] *)
Definition ftrace (P : prims) (source : nat -> byte) (cs : nat -> coin) (h : list fop) : res (list foutcome) :=
  let* F := imported cs in Ok (snd (frun P source F h)).
