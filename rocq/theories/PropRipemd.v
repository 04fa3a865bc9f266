(** * C92: hashlib lists RIPEMD-160 but cannot provide it (crypto.py:27-31).

    With OpenSSL 3 and its legacy provider switched off, hashlib may list "ripemd160"
    in algorithms_available although hashlib.new("ripemd160", ...) raises ValueError.
    The pure Python implementation is then not used. *)
From Coq Require Import Lia ZifyBool ZifyNat ZifyN.
From Verif Require Import Py Prims Const Exceptions Spec PyFacts Utils UtilsFacts Base58 Base58Facts Crypto
  Curve SpecCurve Secp256k1 SecpFacts Cryptocurrencies P2PKHAddress Wif Bip38 SpecBip38 SpecRipemd CodecFacts Toy PropHash PropEncrypt Instances Unicode.

(** ** What is claimed *)
(** The name is listed, and every use of it fails. *)
Definition unprovided (P : prims) : Prop := exists f, h_ripemd160 P = Some f /\ forall b, f b = Raise (Builtin ValueError).
(** Of two outcomes the first is a ValueError, or the error that the second is as well. *)
Definition spoiled {A} (r r' : res A) : Prop :=
  r = Raise (Builtin ValueError) \/ exists e, r = Raise e /\ r' = Raise e.
Definition incorrect : exn := Lib CPassphraseError "Incorrect passphrase".

(** ** Proofs *)
Lemma spoiled_left {A B} (x x' : res A) (f f' : A -> res B) : spoiled x x' -> spoiled (bind x f) (bind x' f').
Proof. intros [->|(e & -> & ->)]; [left; reflexivity|right; exists e; split; reflexivity]. Qed.
Lemma spoiled_right {A B} (x : res A) (f f' : A -> res B) : (forall a, spoiled (f a) (f' a)) -> spoiled (bind x f) (bind x f').
Proof. intros H. destruct x as [a|e]; cbn [bind]; [apply H|right; exists e; split; reflexivity]. Qed.
Lemma spoiled_err {A} e : @spoiled A (Raise e) (Raise e).
Proof. right. exists e. split; reflexivity. Qed.
Section Unprovided.
Variable P : prims.
Hypothesis HU : unprovided P.
Let P' := without_ripemd P.
Lemma ripemd_unprovided d : spoiled (crypto_ripemd160 P d) (crypto_ripemd160 P' d).
Proof.
  unfold crypto_ripemd160. destruct HU as (f & -> & F). apply spoiled_right. intros b. left. apply F.
Qed.
Lemma hash160_unprovided d : spoiled (hash160 P d) (hash160 P' d).
Proof. unfold hash160. change (Crypto.sha256 P') with (Crypto.sha256 P). apply spoiled_right. intros b. apply ripemd_unprovided. Qed.
Lemma P2PKH_unprovided k ap ty al : spoiled (P2PKH_encode P k ap ty al) (P2PKH_encode P' k ap ty al).
Proof.
  unfold P2PKH_encode. apply spoiled_right. intros prefix. apply spoiled_right. intros pk.
  apply spoiled_right. intros raw. apply spoiled_left. apply hash160_unprovided.
Qed.
Lemma address_unprovided self n k t : spoiled (address_of P self n k t) (address_of P' self n k t).
Proof. unfold address_of. apply spoiled_right. intros ap. apply P2PKH_unprovided. Qed.
Ltac norm := unfold P';
  change (check_decode (without_ripemd P)) with (check_decode P);
  change (check_encode (without_ripemd P)) with (check_encode P);
  change (double_sha256 (without_ripemd P)) with (double_sha256 P);
  change (get_checksum (without_ripemd P)) with (get_checksum P);
  change (scrypt_str (without_ripemd P)) with (scrypt_str P);
  change (h_scrypt (without_ripemd P)) with (h_scrypt P);
  change (aes_encrypt (without_ripemd P)) with (aes_encrypt P);
  change (aes_decrypt (without_ripemd P)) with (aes_decrypt P);
  change (address_hash_of (without_ripemd P)) with (address_hash_of P);
  change (private_key_to_wif (without_ripemd P)) with (private_key_to_wif P);
  change (derive_pass_factor (without_ripemd P)) with (derive_pass_factor P).
Ltac step := match goal with
  | |- spoiled (bind (address_of _ _ _ _ _) _) (bind _ _) => apply spoiled_left, address_unprovided
  | |- spoiled (bind ?e _) (bind ?e _) => apply spoiled_right; intros ?
  | |- spoiled (match ?x with _ => _ end) (match ?x with _ => _ end) => destruct x
  | |- spoiled (Raise ?a) (Raise ?a) => apply spoiled_err
  end.
Lemma encrypt_unprovided self wif pw network : spoiled (encrypt P self wif pw network) (encrypt P' self wif pw network).
Proof. unfold encrypt. cbv zeta. norm. repeat step. Qed.
Lemma create_unprovided u self code t seed network :
  spoiled (create_new_encrypted_wif P u self code t seed network) (create_new_encrypted_wif P' u self code t seed network).
Proof. unfold create_new_encrypted_wif. cbv zeta. norm. repeat step. Qed.
Lemma confirm_unprovided self pw code network detail :
  spoiled (confirm_code P self pw code network detail) (confirm_code P' self pw code network detail).
Proof. unfold confirm_code. cbv zeta. norm. repeat step. Qed.
Lemma decrypt_unprovided self e pw network detail :
  spoiled (decrypt P self e pw network detail) (decrypt P' self e pw network detail).
Proof.
  unfold decrypt. cbv zeta. do 2 (apply spoiled_right; intros ?). destruct (negb _); [apply spoiled_err|].
  do 2 (apply spoiled_right; intros ?).
  destruct (bytes_eqb _ _); [unfold decrypt_no_ec; cbv zeta; norm; repeat step|].
  destruct (bytes_eqb _ _); [unfold decrypt_ec; cbv zeta; norm; repeat step|]. unfold raise_not_one_of. repeat step.
Qed.
End Unprovided.

(** ** C92 *)
(** Every operation that needs the hash fails: with a ValueError, or with an error
    that it gives anyway.  In particular what would succeed is a ValueError. *)
Theorem C92_fails : forall P, unprovided P ->
  let P' := without_ripemd P in
  (forall d, spoiled (crypto_ripemd160 P d) (crypto_ripemd160 P' d)) /\
  (forall d, spoiled (hash160 P d) (hash160 P' d)) /\
  (forall k ap ty al, spoiled (P2PKH_encode P k ap ty al) (P2PKH_encode P' k ap ty al)) /\
  (forall self wif pw network, spoiled (encrypt P self wif pw network) (encrypt P' self wif pw network)) /\
  (forall u self code t seed network,
     spoiled (create_new_encrypted_wif P u self code t seed network) (create_new_encrypted_wif P' u self code t seed network)) /\
  (forall self pw code network detail, spoiled (confirm_code P self pw code network detail) (confirm_code P' self pw code network detail)) /\
  (forall self e pw network detail, spoiled (decrypt P self e pw network detail) (decrypt P' self e pw network detail)).
Proof.
  intros P HU P'. split; [apply ripemd_unprovided, HU|]. split; [apply hash160_unprovided, HU|]. split; [apply P2PKH_unprovided, HU|].
  split; [apply encrypt_unprovided, HU|]. split; [apply create_unprovided, HU|]. split; [apply confirm_unprovided, HU|apply decrypt_unprovided, HU].
Qed.
(** Whatever succeeds with the pure Python implementation is a ValueError. *)
Theorem C92_lost : forall P, unprovided P ->
  let P' := without_ripemd P in let lost {A} (r r' : res A) := forall a, r' = Ok a -> r = Raise (Builtin ValueError) in
  (forall d, lost (hash160 P d) (hash160 P' d)) /\
  (forall k ap ty al, lost (P2PKH_encode P k ap ty al) (P2PKH_encode P' k ap ty al)) /\
  (forall self wif pw network, lost (encrypt P self wif pw network) (encrypt P' self wif pw network)) /\
  (forall u self code t seed network,
     lost (create_new_encrypted_wif P u self code t seed network) (create_new_encrypted_wif P' u self code t seed network)) /\
  (forall self pw code network detail, lost (confirm_code P self pw code network detail) (confirm_code P' self pw code network detail)) /\
  (forall self e pw network detail, lost (decrypt P self e pw network detail) (decrypt P' self e pw network detail)).
Proof.
  intros P HU P' lost. assert (L : forall A (r r' : res A), spoiled r r' -> lost A r r').
  { intros A r r' [H|(e & _ & H)] a E; [exact H|congruence]. }
  destruct (C92_fails P HU) as (_ & H1 & H2 & H3 & H4 & H5 & H6). repeat split; intros; apply L; auto.
Qed.
(** Operations without addresses are not affected. *)
Theorem C92_unaffected : forall P, let P' := without_ripemd P in
  (forall u pw lot sequence salt, intermediate_code P u pw lot sequence salt = intermediate_code P' u pw lot sequence salt) /\
  (forall b al, check_encode P b al = check_encode P' b al) /\ (forall s al, check_decode P s al = check_decode P' s al) /\
  (forall s ap al, P2PKH_decode P s ap al = P2PKH_decode P' s ap al) /\
  (forall k t c n, private_key_to_wif P k t c n = private_key_to_wif P' k t c n) /\
  (forall d, Crypto.sha256 P d = Crypto.sha256 P' d) /\ (forall d, double_sha256 P d = double_sha256 P' d) /\
  (forall d, get_checksum P d = get_checksum P' d).
Proof. intros P P'. repeat split. Qed.

(** The right and a wrong passphrase look the same: decrypt never says "Incorrect passphrase". *)
Definition silent {A} (r : res A) : Prop := r <> Raise incorrect.
Lemma silent_bind {A B} (x : res A) (f : A -> res B) : silent x -> (forall a, silent (f a)) -> silent (bind x f).
Proof. intros X F. destruct x as [a|e]; cbn [bind]; [apply F|]. intros E. apply X. injection E as ->. reflexivity. Qed.
Lemma silent_lib {A} c t : c <> CPassphraseError -> @silent A (Raise (Lib c t)).
Proof. intros H E. injection E as E _. contradiction. Qed.
Lemma silent_error {A} c m d x g : c <> CPassphraseError -> @silent A (Raise (lib_error c m d x g)).
Proof. intros H. unfold lib_error. apply silent_lib, H. Qed.
Ltac quiet := repeat match goal with
  | |- silent (bind _ _) => apply silent_bind; [|intros ?]
  | |- silent (Ok _) => discriminate
  | |- silent (Raise (Builtin _)) => discriminate
  | |- silent (Raise (Lib _ _)) => apply silent_lib; discriminate
  | |- silent (Raise (lib_error _ _ _ _ _)) => apply silent_error; discriminate
  | |- silent (match ?x with _ => _ end) => destruct x
  | |- silent _ => solve [auto with silent]
  end.
Lemma quiet_utf8 s : silent (utf8_encode s).
Proof. unfold utf8_encode. quiet. Qed.
#[local] Hint Resolve quiet_utf8 : silent.
Lemma quiet_decode s al : silent (decode s al).
Proof.
  assert (L1 : forall A d v n, silent (decode_loop A d v n)).
  { intros A d. induction d as [|c d IH]; intros v n; cbn [decode_loop]; [discriminate|]. quiet; auto. }
  assert (L2 : forall n v acc, silent (bytes_loop n v acc)).
  { intros n. induction n as [|n IH]; intros v acc; cbn [bytes_loop]; quiet; auto. }
  unfold decode, ascii_encode. quiet; auto.
Qed.
Lemma quiet_i2b z : silent (integer_to_bytes z).
Proof. unfold integer_to_bytes, integer_to_bytes_full, to_bytes. cbv zeta. quiet. Qed.
Lemma quiet_get d u : silent (get_bytes d u).
Proof. unfold get_bytes. quiet. Qed.
Lemma quiet_b2s d : silent (bytes_to_string d).
Proof. unfold bytes_to_string. quiet. Qed.
#[local] Hint Resolve quiet_decode quiet_i2b quiet_get quiet_b2s : silent.
Lemma quiet_not_one_of A m a b g : silent (@raise_not_one_of A m a b g).
Proof. unfold raise_not_one_of. quiet. Qed.
Lemma quiet_scrypt P pw s n r p l : silent (scrypt_str P pw s n r p l).
Proof. unfold scrypt_str. quiet. Qed.
Lemma quiet_private l : silent (PrivateKey_from_bytes l).
Proof. unfold PrivateKey_from_bytes. cbv zeta. quiet. Qed.
Lemma quiet_public k : silent (PrivateKey_public_key k).
Proof. unfold PrivateKey_public_key. quiet. Qed.
Lemma quiet_raw k : silent (raw_compressed k) /\ silent (raw_uncompressed k).
Proof. unfold raw_compressed, raw_uncompressed, number_to_string. split; quiet. Qed.
Lemma quiet_sha P d : silent (double_sha256 P d).
Proof. unfold double_sha256, Crypto.sha256. quiet. Qed.
#[local] Hint Resolve quiet_not_one_of quiet_scrypt quiet_private quiet_public quiet_sha : silent.
Lemma quiet_derive P pw f e : silent (derive_pass_factor P pw f e).
Proof. unfold derive_pass_factor. quiet. Qed.
Lemma quiet_aes P k b : silent (aes_new k) /\ silent (aes_decrypt P k b) /\ silent (xor_bytes k b).
Proof. unfold aes_new, aes_decrypt, xor_bytes. cbv zeta. split; [|split]; quiet. Qed.
Lemma quiet_net self n : silent (select_network self n).
Proof. unfold select_network. cbv zeta. quiet. Qed.
Lemma fails_address P self n k t : unprovided P -> exists e, address_of P self n k t = Raise e /\ e <> incorrect.
Proof.
  intros (f & E & F). unfold address_of, P2PKH_encode.
  assert (N : forall (x : res Z) (g : Z -> res pystr), silent x -> (forall a, exists e, g a = Raise e /\ e <> incorrect) -> exists e, bind x g = Raise e /\ e <> incorrect).
  { intros [a|e] g X G; cbn [bind]; [apply G|]. exists e. split; [reflexivity|]. intros ->. apply X. reflexivity. }
  assert (N' : forall A (x : res A) (g : A -> res pystr), silent x -> (forall a, exists e, g a = Raise e /\ e <> incorrect) -> exists e, bind x g = Raise e /\ e <> incorrect).
  { intros A [a|e] g X G; cbn [bind]; [apply G|]. exists e. split; [reflexivity|]. intros ->. apply X. reflexivity. }
  apply N; [unfold address_prefix_of; quiet|]. intros ap. apply N'; [apply quiet_i2b|]. intros prefix. apply N'; [discriminate|]. intros pk.
  apply N'; [destruct (str_eqb _ _); apply quiet_raw|]. intros raw. unfold hash160. rewrite sha256_eq. cbn [bind].
  unfold crypto_ripemd160. rewrite get_bytes_bytes. cbn [bind]. rewrite E, F. cbn [bind]. eexists. split; [reflexivity|discriminate].
Qed.
Lemma silent_address {B} P self n k t (g : pystr -> res B) : unprovided P -> silent (bind (address_of P self n k t) g).
Proof. intros HU. destruct (fails_address P self n k t HU) as (e & -> & N). cbn [bind]. intros E. injection E as E. contradiction. Qed.
Theorem C92_blind : forall P self e pw network detail, unprovided P ->
  decrypt P self e pw network detail <> Raise (Lib CPassphraseError "Incorrect passphrase").
Proof.
  intros P self e pw network detail HU. change (silent (decrypt P self e pw network detail)).
  pose proof quiet_net as QN. pose proof quiet_derive as QD. pose proof (fun k b => proj1 (quiet_aes P k b)) as QA.
  pose proof (fun k b => proj1 (proj2 (quiet_aes P k b))) as QB. pose proof (fun k b => proj2 (proj2 (quiet_aes P k b))) as QX.
  pose proof (fun k => proj1 (quiet_raw k)) as QR.
  assert (QN' : forall k, silent (aes_new k)) by (intros k; apply (QA k [])).
  unfold decrypt. cbv zeta. apply silent_bind; [apply QN|]. intros n. apply silent_bind; [apply quiet_decode|]. intros d.
  destruct (negb _); [quiet|]. apply silent_bind; [apply quiet_i2b|]. intros p1. apply silent_bind; [apply quiet_i2b|]. intros p2.
  destruct (bytes_eqb _ _); [|destruct (bytes_eqb _ _); [|quiet]].
  - unfold decrypt_no_ec. cbv zeta. repeat match goal with
      | |- silent (bind (address_of _ _ _ _ _) _) => apply silent_address, HU
      | |- silent (bind _ _) => apply silent_bind; [quiet; auto with silent|intros ?]
      | |- silent (match ?x with _ => _ end) => destruct x
      | |- silent (Raise (Lib CError _)) => apply silent_lib; discriminate
      end.
  - unfold decrypt_ec. cbv zeta. repeat match goal with
      | |- silent (bind (address_of _ _ _ _ _) _) => apply silent_address, HU
      | |- silent (bind _ _) => apply silent_bind; [quiet; auto with silent|intros ?]
      | |- silent (match ?x with _ => _ end) => destruct x
      | |- silent (Raise (Lib CError _)) => apply silent_lib; discriminate
      end.
Qed.

(** ** The hypotheses are met, and differ from the ordinary case *)
Definition openssl3 (P : prims) : prims :=
  {| h_sha256 := h_sha256 P; h_ripemd160 := Some (fun _ => Raise (Builtin ValueError)); h_scrypt := h_scrypt P;
     h_aes_enc := h_aes_enc P; h_aes_dec := h_aes_dec P; h_nfc := h_nfc P |}.
Example C92_met : forall P, unprovided (openssl3 P) /\ without_ripemd (openssl3 P) = without_ripemd P.
Proof. intros P. split; [exists (fun _ => Raise (Builtin ValueError)); split; reflexivity|reflexivity]. Qed.
Example C92_hash160 : hash160 (openssl3 toy) (PBytes [x01]) = Raise (Builtin ValueError) /\
  exists d, hash160 (without_ripemd (openssl3 toy)) (PBytes [x01]) = Ok d.
Proof. split; [reflexivity|]. eexists. apply hash160_eq, toy_ok. Qed.
