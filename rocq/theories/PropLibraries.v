(** * PropLibraries: C97, exchanging the libraries for hashes, scrypt, AES and Unicode. *)
From Coq Require Import Lia.
From Verif Require Import Py Prims Const Exceptions Utils Base58 Crypto Curve Secp256k1 Ripemd160
  Cryptocurrencies P2PKHAddress Wif Bip38 SpecRipemd SpecLibraries
  PyFacts UtilsFacts RipemdFacts.
From Verif Require Instances.

Lemma same_bind {A C} (m : res A) (f g : A -> res C) : (forall x, m = Ok x -> f x = g x) -> bind m f = bind m g.
Proof. intros H. destruct m as [a|e]; [apply H; reflexivity|reflexivity]. Qed.

Section Exchange.
  Variables P P' : prims.
  Hypothesis HP : prims_ok P.
  Hypothesis H : same_answers P P'.

  Lemma x_sha256 d : sha256 P' d = sha256 P d.
  Proof. unfold sha256. apply same_bind. intros b _. rewrite (same_sha256 _ _ H). reflexivity. Qed.
  Lemma x_double d : double_sha256 P' d = double_sha256 P d.
  Proof. unfold double_sha256. rewrite x_sha256. apply same_bind. intros b _. apply x_sha256. Qed.
  Lemma x_checksum d : get_checksum P' d = get_checksum P d.
  Proof. unfold get_checksum. rewrite x_double. reflexivity. Qed.
  Lemma ripemd_answer_32 Q b : List.length b = 32%nat -> crypto_ripemd160 Q (PBytes b) = ripemd_answer Q b.
  Proof.
    intros L. unfold crypto_ripemd160, ripemd_answer. rewrite get_bytes_bytes. cbn [bind].
    destruct (h_ripemd160 Q) as [f|]; [reflexivity|]. apply ripemd160_is_rmd160. unfold zlen. rewrite L. reflexivity.
  Qed.
  Lemma x_hash160 d : hash160 P' d = hash160 P d.
  Proof.
    unfold hash160. rewrite x_sha256. unfold sha256. destruct (get_bytes d true) as [b|e]; cbn [bind]; [|reflexivity].
    pose proof (sha256_len P HP b) as L. rewrite !ripemd_answer_32 by exact L. apply (same_ripemd160 _ _ H), L.
  Qed.
  Lemma x_check_encode r a : check_encode P' r a = check_encode P r a.
  Proof. unfold check_encode. rewrite !(same_sha256 _ _ H). reflexivity. Qed.
  Lemma x_check_decode e a : check_decode P' e a = check_decode P e a.
  Proof. unfold check_decode. apply same_bind. intros d _. cbv zeta. rewrite !(same_sha256 _ _ H). reflexivity. Qed.
  Lemma x_encode_wif k w : encode_wif P' k w = encode_wif P k w.
  Proof.
    unfold encode_wif. cbv zeta. repeat first [reflexivity|rewrite x_checksum|apply same_bind; intros ? _|
      match goal with |- (if ?c then _ else _) = _ => destruct c end].
  Qed.
  Lemma x_to_wif k t c n : private_key_to_wif P' k t c n = private_key_to_wif P k t c n.
  Proof.
    unfold private_key_to_wif. cbv zeta. repeat first [reflexivity|rewrite x_encode_wif|apply same_bind; intros ? _|
      match goal with |- (if ?c then _ else _) = _ => destruct c end].
  Qed.
  Lemma x_p2pkh k ap t al : P2PKH_encode P' k ap t al = P2PKH_encode P k ap t al.
  Proof.
    unfold P2PKH_encode. apply same_bind. intros prefix _. apply same_bind. intros key _. apply same_bind. intros raw _.
    rewrite x_hash160. apply same_bind. intros h _. rewrite x_check_encode. reflexivity.
  Qed.
  Lemma x_p2pkh_decode a ap al : P2PKH_decode P' a ap al = P2PKH_decode P a ap al.
  Proof. unfold P2PKH_decode. apply same_bind. intros prefix _. rewrite x_check_decode. reflexivity. Qed.
  Lemma x_address s n k t : address_of P' s n k t = address_of P s n k t.
  Proof. unfold address_of. apply same_bind. intros ap _. apply x_p2pkh. Qed.
  Lemma x_address_hash a : address_hash_of P' a = address_hash_of P a.
  Proof. unfold address_hash_of. apply same_bind. intros b _. apply x_checksum. Qed.
  Lemma x_strong_32 pw s : scrypt_str P' pw s 16384 8 8 32 = scrypt_str P pw s 16384 8 8 32.
  Proof. unfold scrypt_str. rewrite (same_normalisation _ _ H). apply same_bind. intros b _. rewrite (same_strong_32 _ _ H). reflexivity. Qed.
  Lemma x_strong_64 pw s : scrypt_str P' pw s 16384 8 8 64 = scrypt_str P pw s 16384 8 8 64.
  Proof. unfold scrypt_str. rewrite (same_normalisation _ _ H). apply same_bind. intros b _. rewrite (same_strong_64 _ _ H). reflexivity. Qed.
  Lemma x_encrypt_block k b : List.length k = 32%nat -> aes_encrypt P' k b = aes_encrypt P k b.
  Proof.
    intros L. unfold aes_encrypt. destruct (Nat.eqb (List.length b) 16) eqn:E; [|reflexivity]. apply Nat.eqb_eq in E.
    rewrite (same_encryption _ _ H k b L E). reflexivity.
  Qed.
  Lemma x_decrypt_block k b : List.length k = 32%nat -> aes_decrypt P' k b = aes_decrypt P k b.
  Proof.
    intros L. unfold aes_decrypt. destruct (Nat.eqb (List.length b) 16) eqn:E; [|reflexivity]. apply Nat.eqb_eq in E.
    rewrite (same_decryption _ _ H k b L E). reflexivity.
  Qed.
  Lemma aes_key k a : aes_new k = Ok a -> List.length k = 32%nat -> List.length a = 32%nat.
  Proof. unfold aes_new. cbv zeta. destruct (_ || _)%bool; [|discriminate]. intros E. congruence. Qed.
  Lemma strong_length pw s k : scrypt_str P pw s 16384 8 8 64 = Ok k -> List.length k = 64%nat.
  Proof.
    unfold scrypt_str. destruct (utf8_encode _) as [b|e]; cbn [bind]; [|discriminate]. intros E. injection E as <-. apply (scrypt_len P HP).
  Qed.
  Lemma weak_key p s : List.length (from 32 (h_scrypt P p s 1024 1 1 64)) = 32%nat.
  Proof. rewrite from_length, (scrypt_len P HP). reflexivity. Qed.
  Lemma x_pass_factor pw f e : derive_pass_factor P' pw f e = derive_pass_factor P pw f e.
  Proof.
    unfold derive_pass_factor. destruct (if int_in _ _ then _ else _) as [salt l]. rewrite x_strong_32.
    apply same_bind. intros b _. destruct l as [[|x l]|]; [reflexivity| |reflexivity]. rewrite x_double. reflexivity.
  Qed.

  Ltac step :=
    match goal with
    | |- ?a = ?a => reflexivity
    | |- bind (aes_new (from 32 (h_scrypt P _ _ 1024 1 1 64))) _ = _ =>
        apply same_bind; let a := fresh "aes" in let E := fresh "E" in intros a E; apply aes_key in E; [|apply weak_key]
    | S : scrypt_str P _ _ 16384 8 8 64 = Ok ?k |- bind (aes_new (slice 32 64 ?k)) _ = _ =>
        apply same_bind; let a := fresh "aes" in let E := fresh "E" in intros a E; apply aes_key in E;
        [|rewrite slice_length by (rewrite (strong_length _ _ _ S); lia); reflexivity]
    | E : List.length ?a = 32%nat |- bind (aes_encrypt P' ?a ?b) _ = _ => rewrite (x_encrypt_block a b E)
    | E : List.length ?a = 32%nat |- bind (aes_decrypt P' ?a ?b) _ = _ => rewrite (x_decrypt_block a b E)
    | |- bind (address_of P' _ _ _ _) _ = _ => rewrite x_address
    | |- bind (address_hash_of P' _) _ = _ => rewrite x_address_hash
    | |- bind (double_sha256 P' _) _ = _ => rewrite x_double
    | |- bind (get_checksum P' _) _ = _ => rewrite x_checksum
    | |- bind (check_encode P' _ _) _ = _ => rewrite x_check_encode
    | |- bind (private_key_to_wif P' _ _ _ _) _ = _ => rewrite x_to_wif
    | |- bind (scrypt_str P' _ _ 16384 8 8 32) _ = _ => rewrite x_strong_32
    | |- bind (scrypt_str P' _ _ 16384 8 8 64) _ = _ => rewrite x_strong_64
    | |- bind (derive_pass_factor P' _ _ _) _ = _ => rewrite x_pass_factor
    | |- context [h_scrypt P' _ _ 1024 1 1 64] => rewrite (same_weak _ _ H)
    | |- bind ?m _ = bind ?m _ => apply same_bind; let x := fresh "x" in let E := fresh "E" in intros x E
    | |- (let '(_, _) := ?x in _) = _ => destruct x
    | |- (if ?c then _ else _) = (if ?c then _ else _) => destruct c eqn:?
    end.
  Lemma x_intermediate u pw l q s : intermediate_code P' u pw l q s = intermediate_code P u pw l q s.
  Proof.
    unfold intermediate_code. cbv zeta. step.
    do 3 match goal with |- (if ?c then _ else _) = _ => destruct c; [reflexivity|] end.
    match goal with |- bind ?a _ = bind ?b _ => assert (E' : a = b) end.
    { destruct (truthy_int l && truthy_int q), l as [l|], q as [q|]; repeat step. }
    rewrite E'. repeat step.
  Qed.
  Lemma x_encrypt s w pw n : encrypt P' s w pw n = encrypt P s w pw n.
  Proof. unfold encrypt. cbv zeta. repeat step. Qed.
  Lemma x_create u s i t sd n : create_new_encrypted_wif P' u s i t sd n = create_new_encrypted_wif P u s i t sd n.
  Proof.
    unfold create_new_encrypted_wif. cbv zeta. do 2 step. rewrite x_check_decode. repeat step.
  Qed.
  Lemma x_confirm s pw c n d : confirm_code P' s pw c n d = confirm_code P s pw c n d.
  Proof. unfold confirm_code. cbv zeta. rewrite x_check_decode. repeat step. Qed.
  Lemma x_decrypt_no_ec s d pw n dt : decrypt_no_ec P' s d pw n dt = decrypt_no_ec P s d pw n dt.
  Proof. unfold decrypt_no_ec. cbv zeta. repeat step. Qed.
  Lemma x_decrypt_ec s d pw n dt : decrypt_ec P' s d pw n dt = decrypt_ec P s d pw n dt.
  Proof. unfold decrypt_ec. cbv zeta. repeat step. Qed.
  Lemma x_decrypt s e pw n dt : decrypt P' s e pw n dt = decrypt P s e pw n dt.
  Proof. unfold decrypt. cbv zeta. repeat step; rewrite ?x_decrypt_no_ec, ?x_decrypt_ec; reflexivity. Qed.
End Exchange.

(** ** C97: the five methods, and the functions under them, are the same over any two
    sets of libraries that answer alike where BIP38 asks *)
Theorem C97_methods : forall P P', prims_ok P -> same_answers P P' ->
  (forall random pw lot sequence salt, intermediate_code P' random pw lot sequence salt = intermediate_code P random pw lot sequence salt) /\
  (forall self wif pw network, encrypt P' self wif pw network = encrypt P self wif pw network) /\
  (forall random self code t seed network,
     create_new_encrypted_wif P' random self code t seed network = create_new_encrypted_wif P random self code t seed network) /\
  (forall self pw code network detail, confirm_code P' self pw code network detail = confirm_code P self pw code network detail) /\
  (forall self e pw network detail, decrypt P' self e pw network detail = decrypt P self e pw network detail).
Proof.
  intros P P' HP H. split; [|split; [|split; [|split]]]; intros.
  - apply x_intermediate; assumption.
  - apply x_encrypt; assumption.
  - apply x_create; assumption.
  - apply x_confirm; assumption.
  - apply x_decrypt; assumption.
Qed.
Theorem C97_functions : forall P P', prims_ok P -> same_answers P P' ->
  (forall d, sha256 P' d = sha256 P d) /\ (forall d, double_sha256 P' d = double_sha256 P d) /\
  (forall d, get_checksum P' d = get_checksum P d) /\ (forall d, hash160 P' d = hash160 P d) /\
  (forall raw alphabet, check_encode P' raw alphabet = check_encode P raw alphabet) /\
  (forall s alphabet, check_decode P' s alphabet = check_decode P s alphabet) /\
  (forall k t coin network, private_key_to_wif P' k t coin network = private_key_to_wif P k t coin network) /\
  (forall k prefix t alphabet, P2PKH_encode P' k prefix t alphabet = P2PKH_encode P k prefix t alphabet) /\
  (forall a prefix alphabet, P2PKH_decode P' a prefix alphabet = P2PKH_decode P a prefix alphabet).
Proof.
  intros P P' HP H. split; [|split; [|split; [|split; [|split; [|split; [|split; [|split]]]]]]]; intros.
  - apply x_sha256; assumption.
  - apply x_double; assumption.
  - apply x_checksum; assumption.
  - apply x_hash160; assumption.
  - apply x_check_encode; assumption.
  - apply x_check_decode; assumption.
  - apply x_to_wif; assumption.
  - apply x_p2pkh; assumption.
  - apply x_p2pkh_decode; assumption.
Qed.
(** So a package that does no more than what is asked will do: no RIPEMD-160 in hashlib
    or one for SHA-256 digests only, scrypt with BIP38's parameters only, AES-256 on
    single blocks only, anything at all on the rest. *)
Definition minimal (P : prims) (rest : bytes -> bytes) : prims := {|
  h_sha256 := h_sha256 P;
  h_ripemd160 := match h_ripemd160 P with
    | Some f => Some (fun b => if Nat.eqb (List.length b) 32 then f b else Raise (Builtin ValueError))
    | None => None
    end;
  h_scrypt := fun pw salt n r p l =>
    if ((n =? 16384) && (r =? 8) && (p =? 8) && (Nat.eqb l 32 || Nat.eqb l 64)) || ((n =? 1024) && (r =? 1) && (p =? 1) && Nat.eqb l 64)
    then h_scrypt P pw salt n r p l else rest pw;
  h_aes_enc := fun k b => if Nat.eqb (List.length k) 32 && Nat.eqb (List.length b) 16 then h_aes_enc P k b else rest b;
  h_aes_dec := fun k b => if Nat.eqb (List.length k) 32 && Nat.eqb (List.length b) 16 then h_aes_dec P k b else rest b;
  h_nfc := h_nfc P
|}.
Theorem C97_minimal : forall P rest, same_answers P (minimal P rest).
Proof.
  intros P rest. constructor; try (intros; reflexivity).
  - intros b L. unfold ripemd_answer. cbn [minimal h_ripemd160]. destruct (h_ripemd160 P) as [f|]; [rewrite L|]; reflexivity.
  - intros k b K L. cbn [minimal h_aes_enc]. rewrite K, L. reflexivity.
  - intros k b K L. cbn [minimal h_aes_dec]. rewrite K, L. reflexivity.
Qed.
(** hashlib with the true RIPEMD-160 and hashlib without it answer alike. *)
Theorem C97_ripemd : forall P, (forall f, h_ripemd160 P = Some f -> forall b, List.length b = 32%nat -> f b = Ok (rmd160 b)) ->
  same_answers P {| h_sha256 := h_sha256 P; h_ripemd160 := None; h_scrypt := h_scrypt P;
                    h_aes_enc := h_aes_enc P; h_aes_dec := h_aes_dec P; h_nfc := h_nfc P |}.
Proof.
  intros P R. constructor; try (intros; reflexivity). intros b L. unfold ripemd_answer. cbn [h_ripemd160].
  destruct (h_ripemd160 P) as [f|] eqn:E; [rewrite (R f eq_refl b L)|]; reflexivity.
Qed.
(** The published functions meet the hypotheses. *)
Example C97_ex : forall available nfc rest,
  prims_ok (Instances.standard available nfc) /\ same_answers (Instances.standard available nfc) (minimal (Instances.standard available nfc) rest).
Proof. intros. split; [apply Instances.standard_ok|apply C97_minimal]. Qed.
