(** * C33, C34: RIPEMD-160 (libs/ripemd160.py, crypto.py) *)
From Coq Require Import Lia ZifyBool ZifyNat ZifyN.
From Verif Require Import Py Prims Const Spec PyFacts Utils UtilsFacts Base58 SpecRipemd Ripemd160 RipemdFacts Crypto
  Secp256k1 Cryptocurrencies P2PKHAddress Wif Bip38 SpecBip38 CodecFacts.

(** ** C33: the pure-Python function is the published RIPEMD-160. *)
Theorem C33_is_ripemd160 : forall msg, zlen msg < 2 ^ 61 -> ripemd160 msg = Ok (rmd160 msg).
Proof. intros msg H. apply ripemd160_is_rmd160. change (2 ^ 64) with (8 * 2 ^ 61). lia. Qed.
Theorem C33_twenty_bytes : forall msg h, ripemd160 msg = Ok h -> List.length h = 20%nat.
Proof.
  intros msg h E. destruct (Z.ltb_spec (8 * zlen msg) (2 ^ 64)) as [L|L].
  - rewrite ripemd160_is_rmd160 in E by exact L. injection E as <-. apply rmd160_length.
  - rewrite ripemd160_too_long in E by exact L. discriminate.
Qed.
Theorem C33_too_long : forall msg, 2 ^ 61 <= zlen msg -> ripemd160 msg = Raise (Builtin StructError).
Proof. intros msg H. apply ripemd160_too_long. change (2 ^ 64) with (8 * 2 ^ 61). lia. Qed.
(** Published digests of "", "abc" and the 26-letter alphabet (two blocks after padding come with 62 letters). *)
Definition ascii_msg (s : string) : bytes := List.map n2b (str s).
Example C33_empty : ripemd160 [] = Ok [x9c; x11; x85; xa5; xc5; xe9; xfc; x54; x61; x28; x08; x97; x7e; xe8; xf5; x48; xb2; x25; x8d; x31].
Proof. vm_compute. reflexivity. Qed.
Example C33_abc : ripemd160 (ascii_msg "abc") = Ok [x8e; xb2; x08; xf7; xe0; x5d; x98; x7a; x9b; x04; x4a; x8e; x98; xc6; xb0; x87; xf1; x5a; x0b; xfc].
Proof. vm_compute. reflexivity. Qed.
Example C33_two_blocks : ripemd160 (ascii_msg "ABCDEFGHIJKLMNOPQRSTUVWXYZabcdefghijklmnopqrstuvwxyz0123456789") =
  Ok [xb0; xe2; x0b; x6e; x31; x16; x64; x02; x86; xed; x3a; x87; xa5; x71; x30; x79; xb2; x1f; x51; x89].
Proof. vm_compute. reflexivity. Qed.

(** ** C34: with and without hashlib's RIPEMD-160 *)
(** The same Python without "ripemd160" in hashlib.algorithms_available. *)
Definition without_ripemd (P : prims) : prims :=
  {| h_sha256 := h_sha256 P; h_ripemd160 := None; h_scrypt := h_scrypt P;
     h_aes_enc := h_aes_enc P; h_aes_dec := h_aes_dec P; h_nfc := h_nfc P |}.
(** hashlib's function, if there is one, is RIPEMD-160. *)
Definition true_ripemd (P : prims) : Prop :=
  match h_ripemd160 P with None => True | Some f => forall b, zlen b < 2 ^ 61 -> f b = Ok (rmd160 b) end.

Section Indep.
Variable P : prims.
Hypothesis HS : forall b, List.length (h_sha256 P b) = 32%nat.
Hypothesis HR : true_ripemd P.
Let P' := without_ripemd P.
Lemma hash160_indep d : hash160 P d = hash160 P' d.
Proof.
  unfold hash160, Crypto.sha256. destruct (get_bytes d true) as [b|e]; cbn [bind]; [|reflexivity].
  unfold crypto_ripemd160. change (h_sha256 P') with (h_sha256 P). rewrite get_bytes_bytes. cbn [bind].
  change (h_ripemd160 P') with (@None (bytes -> res bytes)).
  unfold true_ripemd in HR. destruct (h_ripemd160 P) as [f|]; [|reflexivity].
  assert (L : zlen (h_sha256 P b) < 2 ^ 61) by (unfold zlen; rewrite HS; reflexivity).
  rewrite HR by exact L. rewrite C33_is_ripemd160 by exact L. reflexivity.
Qed.
Lemma bind_ext {A B} (e e' : res A) (f g : A -> res B) : e = e' -> (forall a, f a = g a) -> bind e f = bind e' g.
Proof. intros -> H. destruct e'; cbn [bind]; [apply H|reflexivity]. Qed.
Lemma P2PKH_indep k ap ty al : P2PKH_encode P k ap ty al = P2PKH_encode P' k ap ty al.
Proof.
  unfold P2PKH_encode. apply bind_ext; [reflexivity|]. intros prefix. apply bind_ext; [reflexivity|]. intros pk.
  apply bind_ext; [reflexivity|]. intros raw. apply bind_ext; [apply hash160_indep|]. intros h. reflexivity.
Qed.
Lemma address_indep self n k t : address_of P self n k t = address_of P' self n k t.
Proof. unfold address_of. apply bind_ext; [reflexivity|]. intros ap. apply P2PKH_indep. Qed.
Ltac norm := unfold P';
  change (check_decode (without_ripemd P)) with (check_decode P);
  change (check_encode (without_ripemd P)) with (check_encode P);
  change (double_sha256 (without_ripemd P)) with (double_sha256 P);
  change (get_checksum (without_ripemd P)) with (get_checksum P);
  change (scrypt_str (without_ripemd P)) with (scrypt_str P);
  change (h_scrypt (without_ripemd P)) with (h_scrypt P);
  change (aes_encrypt (without_ripemd P)) with (aes_encrypt P);
  change (aes_decrypt (without_ripemd P)) with (aes_decrypt P);
  change (address_hash_of (without_ripemd P)) with (address_hash_of P);
  change (private_key_to_wif (without_ripemd P)) with (private_key_to_wif P);
  change (derive_pass_factor (without_ripemd P)) with (derive_pass_factor P).
Ltac step := match goal with
  | |- bind ?e _ = bind ?e _ => apply bind_ext; [reflexivity|intros ?]
  | |- bind (address_of _ _ _ _ _) _ = bind _ _ => apply bind_ext; [apply address_indep|intros ?]
  | |- (match ?x with _ => _ end) = (match ?x with _ => _ end) => destruct x
  | |- ?a = ?a => reflexivity
  end.
Lemma intermediate_indep u pw lot sequence salt :
  intermediate_code P u pw lot sequence salt = intermediate_code P' u pw lot sequence salt.
Proof. unfold intermediate_code. norm. reflexivity. Qed.
Lemma encrypt_indep self wif pw network : encrypt P self wif pw network = encrypt P' self wif pw network.
Proof. unfold encrypt. cbv zeta. norm. repeat step. Qed.
Lemma create_indep u self code t seed network :
  create_new_encrypted_wif P u self code t seed network = create_new_encrypted_wif P' u self code t seed network.
Proof. unfold create_new_encrypted_wif. cbv zeta. norm. repeat step. Qed.
Lemma confirm_indep self pw code network detail :
  confirm_code P self pw code network detail = confirm_code P' self pw code network detail.
Proof. unfold confirm_code. cbv zeta. norm. repeat step. Qed.
Lemma decrypt_indep self e pw network detail :
  decrypt P self e pw network detail = decrypt P' self e pw network detail.
Proof.
  unfold decrypt. cbv zeta. do 2 (apply bind_ext; [reflexivity|intros ?]). destruct (negb _); [reflexivity|].
  do 2 (apply bind_ext; [reflexivity|intros ?]).
  destruct (bytes_eqb _ _); [unfold decrypt_no_ec; cbv zeta; norm; repeat step|].
  destruct (bytes_eqb _ _); [unfold decrypt_ec; cbv zeta; norm; repeat step|reflexivity].
Qed.
End Indep.

Theorem C34_independent_of_hashlib : forall P, (forall b, List.length (h_sha256 P b) = 32%nat) -> true_ripemd P ->
  let P' := without_ripemd P in
  (forall d, hash160 P d = hash160 P' d) /\
  (forall k ap ty al, P2PKH_encode P k ap ty al = P2PKH_encode P' k ap ty al) /\
  (forall u pw lot sequence salt, intermediate_code P u pw lot sequence salt = intermediate_code P' u pw lot sequence salt) /\
  (forall self wif pw network, encrypt P self wif pw network = encrypt P' self wif pw network) /\
  (forall u self code t seed network,
     create_new_encrypted_wif P u self code t seed network = create_new_encrypted_wif P' u self code t seed network) /\
  (forall self pw code network detail, confirm_code P self pw code network detail = confirm_code P' self pw code network detail) /\
  (forall self e pw network detail, decrypt P self e pw network detail = decrypt P' self e pw network detail).
Proof.
  intros P HS HR P'.
  split; [apply hash160_indep; assumption|]. split; [apply P2PKH_indep; assumption|].
  split; [apply intermediate_indep|]. split; [apply encrypt_indep; assumption|].
  split; [apply create_indep; assumption|]. split; [apply confirm_indep; assumption|apply decrypt_indep; assumption].
Qed.
(** Digests of str and bytes arguments agree as well. *)
Theorem C34_digest : forall P b, true_ripemd P -> zlen b < 2 ^ 61 ->
  crypto_ripemd160 P (PBytes b) = Ok (rmd160 b) /\ crypto_ripemd160 (without_ripemd P) (PBytes b) = Ok (rmd160 b).
Proof.
  intros P b HR L. unfold crypto_ripemd160. rewrite get_bytes_bytes. cbn [bind].
  change (h_ripemd160 (without_ripemd P)) with (@None (bytes -> res bytes)).
  rewrite C33_is_ripemd160 by exact L. split; [|reflexivity].
  unfold true_ripemd in HR. destruct (h_ripemd160 P) as [f|]; [rewrite HR by exact L|]; reflexivity.
Qed.
(** The hypotheses are met by a Python whose hashlib offers the real function. *)
Example C34_example : let P := {| h_sha256 := fun _ => repeat x11 32; h_ripemd160 := Some (fun b => Ok (rmd160 b));
    h_scrypt := fun _ _ _ _ _ l => repeat x22 l; h_aes_enc := fun _ b => b; h_aes_dec := fun _ b => b; h_nfc := fun s => s |} in
  (forall b, List.length (h_sha256 P b) = 32%nat) /\ true_ripemd P /\ hash160 P (PBytes [x01]) = hash160 (without_ripemd P) (PBytes [x01]).
Proof. cbv zeta. split; [reflexivity|]. split; [intros b _; reflexivity|]. apply hash160_indep; [reflexivity|intros b _; reflexivity]. Qed.
