(** * SpecLibraries: two sets of libraries that answer alike where it matters.

    The library gets SHA-256 and RIPEMD-160 from hashlib (or its own ripemd160.py),
    scrypt, AES and Unicode normalisation from other packages.  [same_answers P P']:
    [P'] answers as [P] does on all data for SHA-256 and normalisation, on 32-byte
    strings for RIPEMD-160 (own function if hashlib has none), for the three sets of
    scrypt parameters BIP38 names, and for AES on single blocks under 256-bit keys. *)
From Verif Require Import Py Prims SpecRipemd.

(** The RIPEMD-160 digest a Python gives: that of hashlib if it lists the function,
    otherwise the one of the specification *)
Definition ripemd_answer (P : prims) (data : bytes) : res bytes :=
  match h_ripemd160 P with Some f => f data | None => Ok (rmd160 data) end.

Record same_answers (P P' : prims) : Prop := {
  same_sha256 : forall data, h_sha256 P' data = h_sha256 P data;
  same_ripemd160 : forall data, List.length data = 32%nat -> ripemd_answer P' data = ripemd_answer P data;
  same_strong_32 : forall password salt, h_scrypt P' password salt 16384 8 8 32 = h_scrypt P password salt 16384 8 8 32;
  same_strong_64 : forall password salt, h_scrypt P' password salt 16384 8 8 64 = h_scrypt P password salt 16384 8 8 64;
  same_weak : forall point salt, h_scrypt P' point salt 1024 1 1 64 = h_scrypt P point salt 1024 1 1 64;
  same_encryption : forall key block, List.length key = 32%nat -> List.length block = 16%nat ->
    h_aes_enc P' key block = h_aes_enc P key block;
  same_decryption : forall key block, List.length key = 32%nat -> List.length block = 16%nat ->
    h_aes_dec P' key block = h_aes_dec P key block;
  same_normalisation : forall text, h_nfc P' text = h_nfc P text
}.
