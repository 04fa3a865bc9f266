(** * PropMessages: C52 - the texts of the library's exceptions do not depend on
    passphrases, private keys and seeds. *)
From Coq Require Import Lia ZifyBool ZifyNat ZifyN.
From Verif Require Import ErrorFacts Py Prims Const Spec PyFacts Utils UtilsFacts Base58 Base58Facts Exceptions
  Curve SpecCurve Secp256k1 SecpFacts Cryptocurrencies Wif Bip38 SpecBip38 SpecRecords SpecSession
  CodecFacts CodecFacts2 Bip38Facts Bip38Facts2 Sessions RecordFacts ECFacts Toy PropEncrypt PropIntermediate PropCreate PropShape PropEC PropErrors.

(** The texts without any value in them. *)
Definition fixed_texts : list pystr :=
  [str "Incorrect passphrase"; str "Invalid private key bytes"; str "Invalid public key bytes";
   str "Invalid Wallet Import Format (WIF)";
   str "Invalid EC encrypted WIF (Wallet Import Format)"; str "Invalid Non-EC encrypted WIF (Wallet Import Format)"].
(** The text of any library exception of [f secret] is fixed, or the call raises
    the very same exception for every other secret. *)
Definition discreet {S A} (allowed : S -> Prop) (f : S -> res A) : Prop :=
  forall s c t, allowed s -> f s = Raise (Lib c t) -> In t fixed_texts \/ forall s', allowed s' -> f s' = Raise (Lib c t).
Definition any {S} (s : S) : Prop := True.

Lemma text_eq {A} c t c' t' : @Raise A (Lib c t) = Raise (Lib c' t') -> t' = t. Proof. congruence. Qed.
Ltac fixed := match goal with H : Raise (Lib _ _) = Raise (Lib ?c ?t) |- _ => left; apply text_eq in H; rewrite H; unfold fixed_texts; clear; cbn [In]; tauto end.
Ltac same := match goal with H : _ = Raise (Lib ?c ?t) |- _ => right; intros; exact H end.

Theorem C52_decrypt : forall P self network s detail, prims_ok P -> constructed self ->
  discreet any (fun pw => decrypt P self s pw network detail).
Proof.
  intros P self network s detail HP HC pw c t _ H. destruct (constructed_cases self network HC) as [(n & w & a & N)|N].
  - destruct (is_ascii_dec s) as [I|I]; [|rewrite (decrypt_non_ascii P _ _ _ _ _ _ _ _ N I) in H; discriminate].
    destruct (decode_ascii58 s I) as [d D]. destruct (Nat.eq_dec (List.length d) 43) as [L|L].
    2:{ right. intros pw' _. rewrite (decrypt_bad_length P _ _ _ _ _ _ _ _ _ N D L) in H; rewrite (decrypt_bad_length P _ _ _ _ _ _ _ _ _ N D L); exact H. }
    destruct (cut43 d L) as (p & f & ah & e1 & e2 & ck & -> & Lp & La & L1 & L2 & Lc).
    assert (E : forall pw detail, decrypt P self s pw network detail = _)
      by (intros; exact (decrypt_eq P HP _ _ _ _ _ _ _ _ _ _ _ _ _ _ N D Lp La L1 L2 Lc)).
    rewrite E in H.
    destruct (bytes_eqb p [x01; x42]); [|destruct (bytes_eqb p [x01; x43])].
    + unfold decrypt_no_ec_result in H. destruct (_ || _) eqn:FL.
      * destruct (utf8_cases (h_nfc P pw)) as [[pwb U]|U]; rewrite U in H; [|discriminate]. cbv zeta in H.
        clear FL. destruct (_ || _); [fixed|]. destruct (zero_first _); [fixed|]. destruct (bytes_eqb _ _); [discriminate|fixed].
      * right. intros pw' _. rewrite E. unfold decrypt_no_ec_result. rewrite FL. exact H.
    + unfold decrypt_ec_result in H.
      destruct (utf8_cases (h_nfc P pw)) as [[pwb U]|U]; rewrite U in H; [|discriminate]. cbv zeta in H.
      destruct (key_okb _); [|fixed]. destruct (_ <=? _)%nat; [|discriminate]. destruct (key_okb _); [|fixed].
      destruct (zero_first _); [fixed|]. destruct (bytes_eqb _ _); [discriminate|fixed].
    + right. intros pw' _. rewrite E. exact H.
  - right. intros pw' _. rewrite (decrypt_no_net _ _ _ _ _ _ _ N) in H; rewrite (decrypt_no_net _ _ _ _ _ _ _ N); exact H.
Qed.
Theorem C52_confirm_code : forall P self network code detail, prims_ok P -> constructed self ->
  discreet any (fun pw => confirm_code P self pw code network detail).
Proof.
  intros P self network code detail HP HC pw c t _ H. destruct (constructed_cases self network HC) as [(n & w & a & N)|N].
  - pose proof (fun pw => confirm_bad P self network n w a code pw detail N) as B.
    destruct (check_decode P code base58_alphabet) as [d|e'] eqn:D; [|right; intros; rewrite B in H; rewrite B; exact H].
    destruct (Nat.eq_dec (List.length d) 51) as [L|L]; [|right; intros; rewrite (B _ L) in H; rewrite (B _ L); exact H].
    destruct (cut51 d L) as (p & f & ah & ent & b0 & q1 & q2 & -> & Lp & La & Le & L1 & L2).
    assert (E : forall pw detail, confirm_code P self pw code network detail = _)
      by (intros; exact (confirm_eq P HP _ _ _ _ _ _ _ _ _ _ _ _ _ _ _ N D Lp La Le L1 L2)).
    rewrite E in H. destruct (bytes_eqb _ p); [|right; intros; rewrite E; exact H]. unfold confirm_core in H.
    destruct (utf8_cases (h_nfc P pw)) as [[pwb U]|U]; rewrite U in H; [|discriminate]. cbv zeta in H. destruct (key_okb _); [|fixed].
    destruct (PublicKey_from_bytes _); [|fixed]. destruct (bytes_eqb _ _); [discriminate|fixed].
  - right. intros. rewrite (confirm_no_net _ _ _ _ _ _ _ N) in H; rewrite (confirm_no_net _ _ _ _ _ _ _ N); exact H.
Qed.
(** encrypt: neither the WIF nor the passphrase *)
Theorem C52_encrypt : forall P self network, prims_ok P -> constructed self ->
  discreet any (fun secret => encrypt P self (fst secret) (snd secret) network).
Proof.
  intros P self network HP HC [wif pw] c t _ H. cbn [fst snd] in H. destruct (constructed_cases self network HC) as [(n & w & a & N)|N].
  - rewrite (encrypt_eq P HP _ _ _ _ _ _ _ N) in H. destruct (decode_wif wif w) as [[[k ty] ck]|e'] eqn:D.
    + unfold encrypt_result in H. destruct (key_okb k); [|fixed].
      destruct (utf8_cases (h_nfc P pw)) as [[pwb U]|U]; rewrite U in H; [|discriminate]. cbv zeta in H. destruct (_ || _); discriminate.
    + destruct (decode_wif_class _ _ _ (ns_w _ _ _ _ _ N) D) as [[-> _]| ->]; [discriminate|fixed].
  - right. intros. rewrite (encrypt_no_net _ _ _ _ _ _ N) in H; rewrite (encrypt_no_net _ _ _ _ _ _ N); exact H.
Qed.
(** create_new_encrypted_wif: not the seed, among the seeds that are bytes or
    hexadecimal text *)
Theorem C52_create : forall P random self network code t, prims_ok P -> constructed self ->
  discreet (fun arg => exists seed, argument_bytes random arg seed)
    (fun arg => create_new_encrypted_wif P random self code t arg network).
Proof.
  intros P random self network code t HP HC arg c txt [seed A] H. apply argument_entropy in A.
  destruct (constructed_cases self network HC) as [(n & w & a & N)|N].
  - assert (E : forall arg seed, argument_bytes random arg seed -> create_new_encrypted_wif P random self code t arg network =
        match check_decode P code base58_alphabet with
        | Raise _ => Raise (Lib CPassphraseError "Invalid intermediate passphrase")
        | Ok d => create_result P a t seed d end).
    { intros ar sd X. apply argument_entropy in X. rewrite (create_eq P HP _ _ _ _ _ _ _ _ _ N), X. reflexivity. }
    rewrite (E _ _ (proj2 (argument_entropy _ _ _) A)) in H.
    destruct (check_decode P code base58_alphabet) as [d|e']; [|right; intros s' [sd' X]; rewrite (E _ _ X); exact H].
    unfold create_result in E, H. destruct (Nat.eqb _ _); [|right; intros s' [sd' X]; rewrite (E _ _ X); exact H].
    destruct (type_of t) as [cc|]; [|right; intros s' [sd' X]; rewrite (E _ _ X); exact H].
    destruct (magic_of _) as [lot|]; [|right; intros s' [sd' X]; rewrite (E _ _ X); exact H].
    unfold create_core in H. cbv zeta in H. destruct (key_okb _); [|fixed].
    destruct (PublicKey_from_bytes (from 16 d)) as [ppk|e'] eqn:B; cbn [bind] in H.
    2:{ apply PublicKey_from_bytes_err in B. subst e'. fixed. }
    repeat match type of H with bind ?x _ = _ => let E := fresh in destruct x eqn:E; cbn [bind] in H; [|apply enc_block_class in E; subst; discriminate] end.
    discriminate.
  - right. intros. rewrite (create_no_net _ _ _ _ _ _ _ _ N) in H; rewrite (create_no_net _ _ _ _ _ _ _ _ N); exact H.
Qed.
(** intermediate_code: not the passphrase; of the owner salt no more than its length *)
Theorem C52_intermediate_code : forall P random lot sequence arg,
  discreet any (fun pw => intermediate_code P random pw lot sequence arg).
Proof.
  intros P random lot sequence arg pw c t _ H. unfold intermediate_code in *. fold (entropy_arg random arg) in *.
  destruct (entropy_arg random arg) as [salt|e]; cbn [bind] in *; [|same].
  destruct (negb (_ || _)); [rewrite bytes_to_string_bytes in *; same|].
  destruct (_ && _); [rewrite bytes_to_string_bytes in *; same|].
  destruct (_ || _); [same|].
  assert (X : forall f m en, (let* sk := PrivateKey_from_bytes f in
    let* pass_point := PrivateKey_public_key sk in
    let* pp := raw_compressed pass_point in
    let* s := check_encode P (m ++ en ++ pp) base58_alphabet in
    ensure_string s) = Raise (Lib c t) -> In t fixed_texts).
  { intros f m en. rewrite PrivateKey_from_bytes_eq. destruct (key_okb f) eqn:K; cbn [bind].
    - destruct (pubof_ok _ (proj2 (key_okb_range _ K))) as (-> & _ & O). cbn [bind]. rewrite (ser_compressed _ O). cbn [bind].
      rewrite check_encode_b58c. discriminate.
    - intros Y. apply text_eq in Y. rewrite Y. unfold fixed_texts; clear; cbn [In]; tauto. }
  destruct (truthy_int lot && truthy_int sequence).
  - destruct lot as [l|]; [destruct sequence as [q|]|].
    + destruct (negb _) eqn:R1; [same|]. destruct (negb ((0 <=? q) && _)) eqn:R2; [same|].
      left. rewrite scrypt_str_eq in H. destruct (utf8_cases (h_nfc P pw)) as [[pwb U]|U]; rewrite U in H; [|discriminate]. cbn [bind] in H.
      rewrite (integer_to_bytes_n_ok _ 4) in H by (change (256 ^ 4) with 4294967296; lia). cbn [bind] in H. rewrite double_sha256_eq in H. cbn [bind] in H. apply X in H. exact H.
    + left. rewrite scrypt_str_eq in H. destruct (utf8_cases (h_nfc P pw)) as [[pwb U]|U]; rewrite U in H; [|discriminate]. cbn [bind] in H. apply X in H. exact H.
    + left. rewrite scrypt_str_eq in H. destruct (utf8_cases (h_nfc P pw)) as [[pwb U]|U]; rewrite U in H; [|discriminate]. cbn [bind] in H. apply X in H. exact H.
  - left. rewrite scrypt_str_eq in H. destruct (utf8_cases (h_nfc P pw)) as [[pwb U]|U]; rewrite U in H; [|discriminate]. cbn [bind] in H. apply X in H. exact H.
Qed.
(** The notion is not empty: quoting the passphrase would not be discreet; and both
    kinds of texts occur. *)
Example C52_leak : ~ @discreet pystr unit any (fun pw => Raise (Lib CError pw)).
Proof.
  intros H. destruct (H (str "secret") CError (str "secret") I eq_refl) as [F|F].
  - vm_compute in F. repeat destruct F as [F|F]; try discriminate F. exact F.
  - specialize (F [] I). discriminate F.
Qed.
Example C52_examples :
  decrypt toy btc (str "abc") (str "secret") None true = Raise (Lib CWIFError "Invalid encrypted WIF length, (expected: 43 | got: '3')") /\
  intermediate_code toy (repeat x01 8) (str "secret") (Some 1) (Some 1) PNone = Raise (Lib CError "Invalid lot, (expected: 100000 <= lot <= 999999 | got: '1')") /\
  encrypt toy btc (str "abc") (str "secret") None = Raise (Lib CWIFError "Invalid Wallet Import Format (WIF)").
Proof. split; [|split]; vm_compute; reflexivity. Qed.
