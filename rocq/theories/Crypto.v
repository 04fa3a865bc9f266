(** * Crypto: /repo/bip38/crypto.py *)
From Verif Require Import Py Prims Const Utils Ripemd160.

(** crypto.py:16-31, ripemd160 *)
Definition crypto_ripemd160 (P : prims) (data : pyarg) : res bytes :=
  let* b := get_bytes data true in
  match h_ripemd160 P with
  | Some f => f b
  | None => Ripemd160.ripemd160 b
  end.

(** crypto.py:34-45, sha256 *)
Definition sha256 (P : prims) (data : pyarg) : res bytes :=
  let* b := get_bytes data true in Ok (h_sha256 P b).

(** crypto.py:48-59, double_sha256 *)
Definition double_sha256 (P : prims) (data : pyarg) : res bytes :=
  let* d := sha256 P data in sha256 P (PBytes d).

(** crypto.py:62-76, get_checksum *)
Definition get_checksum (P : prims) (data : pyarg) : res bytes :=
  let* d := double_sha256 P data in Ok (upto CHECKSUM_BYTE_LENGTH d).

(** crypto.py:79-90, hash160 *)
Definition hash160 (P : prims) (data : pyarg) : res bytes :=
  let* d := sha256 P data in crypto_ripemd160 P (PBytes d).
