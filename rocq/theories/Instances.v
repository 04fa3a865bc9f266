(** * Instances: the published functions satisfy the assumptions of Prims.v.

    SHA-256, RIPEMD-160, scrypt and AES-256 are the published ones (Sha256.v,
    SpecRipemd.v, Aes.v); the normal form is any function (C83 takes that of Unicode.v).  So every theorem with
    the hypothesis [prims_ok] applies to them. *)
From Verif Require Import Py PyFacts Prims Spec SpecRipemd RipemdFacts Sha256 Aes.

Definition standard (ripemd_in_hashlib : bool) (nfc : pystr -> pystr) : prims :=
  {| h_sha256 := sha256;
     h_ripemd160 := if ripemd_in_hashlib then Some (fun b => Ok (rmd160 b)) else None;
     h_scrypt := scrypt;
     h_aes_enc := aes256_enc;
     h_aes_dec := aes256_dec;
     h_nfc := nfc |}.

Lemma rmd160_length b : List.length (rmd160 b) = 20%nat.
Proof.
  unfold rmd160. destruct (fold_left _ _ _) as [[[[h0 h1] h2] h3] h4].
  unfold le_word. rewrite !app_length, !rev_length, !z2be_length. reflexivity.
Qed.
Theorem standard_ok : forall available nfc, prims_ok (standard available nfc).
Proof.
  intros available nfc. split; cbn [h_sha256 h_ripemd160 h_scrypt h_aes_enc h_aes_dec standard].
  - apply sha256_length.
  - intros f b E. destruct available; [|discriminate]. injection E as <-. exists (rmd160 b). split; [reflexivity|apply rmd160_length].
  - apply scrypt_length.
  - apply aes256_enc_length.
  - apply aes256_dec_length.
  - apply aes256_dec_enc.
Qed.
