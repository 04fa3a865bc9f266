(** * Prims: the external functions called by the repository.

    hashlib.sha256, hashlib.new("ripemd160"), scrypt.hash, pyaes.AES and
    unicodedata.normalize live outside /repo (hashlib, scrypt, pyaes,
    unicodedata).  The model is parametric in them.  [prims_ok] collects the
    only facts about them that theorems may use; Instances.v exhibits the real
    SHA-256, RIPEMD-160, AES-256 and scrypt and proves [prims_ok] for them. *)
From Verif Require Import Py.

Record prims := {
  (** hashlib.sha256(b).digest()  (crypto.py:45, libs/base58.py:43,71) *)
  h_sha256 : bytes -> bytes;
  (** hashlib.new("ripemd160", b).digest() when "ripemd160" is in
      hashlib.algorithms_available, [None] when it is not (crypto.py:27-31).
      hashlib.new may fail although the name is listed: OpenSSL 3 without its
      legacy provider raises ValueError (C92). *)
  h_ripemd160 : option (bytes -> res bytes);
  (** scrypt.hash(password, salt, N, r, p, buflen) on byte strings
      (bip38.py:137,142,207,314,415,423,532,587,595) *)
  h_scrypt : bytes -> bytes -> Z -> Z -> Z -> nat -> bytes;
  (** one AES block, pyaes.AES(key).encrypt / .decrypt; arguments: key, block *)
  h_aes_enc : bytes -> bytes -> bytes;
  h_aes_dec : bytes -> bytes -> bytes;
  (** unicodedata.normalize("NFC", s) *)
  h_nfc : pystr -> pystr
}.

Record prims_ok (P : prims) : Prop := {
  sha256_len : forall b, List.length (h_sha256 P b) = 32%nat;
  ripemd160_len : forall f b, h_ripemd160 P = Some f -> exists d, f b = Ok d /\ List.length d = 20%nat;
  scrypt_len : forall pw salt n r p l, List.length (h_scrypt P pw salt n r p l) = l;
  aes_enc_len : forall k b, List.length k = 32%nat -> List.length b = 16%nat ->
                List.length (h_aes_enc P k b) = 16%nat;
  aes_dec_len : forall k b, List.length k = 32%nat -> List.length b = 16%nat ->
                List.length (h_aes_dec P k b) = 16%nat;
  aes_dec_enc : forall k b, List.length k = 32%nat -> List.length b = 16%nat ->
                h_aes_dec P k (h_aes_enc P k b) = b
}.
