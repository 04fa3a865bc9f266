(** * C83: which passphrases are the same (bip38.py, unicodedata.normalize("NFC", …)) *)
From Coq Require Import Lia ZifyBool ZifyNat ZifyN.
From Verif Require Import Py Prims Const PyFacts Utf8Facts Bip38 SpecBip38 PropDecrypt Instances
  Unicode SpecUnicode UnicodeFacts UnicodeFacts2.

(** Canonically equivalent passphrases are the same passphrase in every call. *)
Theorem C83_equivalent : forall P self pw1 pw2, (forall s, h_nfc P s = nfc s) -> canonically_equivalent pw1 pw2 ->
  (forall random lot sequence salt, intermediate_code P random pw1 lot sequence salt = intermediate_code P random pw2 lot sequence salt) /\
  (forall wif network, encrypt P self wif pw1 network = encrypt P self wif pw2 network) /\
  (forall code network detail, confirm_code P self pw1 code network detail = confirm_code P self pw2 code network detail) /\
  (forall s network detail, decrypt P self s pw1 network detail = decrypt P self s pw2 network detail).
Proof. intros P self pw1 pw2 HN E. apply C20_normal_form. rewrite !HN. apply equivalent_iff, E. Qed.

(** No others are: passphrases that are not canonically equivalent are different
    bytes for scrypt. *)
Theorem C83_only : forall P pw1 pw2 b, (forall s, h_nfc P s = nfc s) ->
  passphrase_bytes P pw1 b -> passphrase_bytes P pw2 b -> canonically_equivalent pw1 pw2.
Proof.
  intros P pw1 pw2 b HN B1 B2. unfold passphrase_bytes in B1, B2. rewrite HN in B1, B2. apply utf8_decode_iff in B1. apply utf8_decode_iff in B2.
  apply equivalent_iff. congruence.
Qed.

(** What is encoded is canonically equivalent to what was typed, and composed, and
    normalising it again changes nothing. *)
Theorem C83_normal_form : forall s, canonically_equivalent s (nfc s) /\ composed (nfc s) /\ nfc (nfc s) = nfc s.
Proof. intros s. split; [apply ce_nfc|]. split; [apply nfc_composed|apply nfc_nfc]. Qed.

(** A passphrase can be used iff it has no surrogate. *)
Theorem C83_encodable : forall P pw, (forall s, h_nfc P s = nfc s) -> (forall c, In c pw -> (c <= 0x10FFFF)%N) ->
  (exists b, passphrase_bytes P pw b) <-> (forall c, In c pw -> ~ surrogate c).
Proof.
  intros P pw HN HC. unfold passphrase_bytes. rewrite HN, utf8_good, good_nfc, forallb_forall. unfold good, surrogate. split.
  - intros H c I. specialize (H c I). lia.
  - intros H c I. specialize (H c I). specialize (HC c I). lia.
Qed.

(** Text below U+0300 (ASCII, Latin letters with or without marks, phonetic
    letters) is encoded as it is. *)
Theorem C83_plain_text : forall P pw b, (forall s, h_nfc P s = nfc s) -> (forall c, In c pw -> (c < 0x300)%N) ->
  passphrase_bytes P pw b <-> utf8_encode pw = Ok b.
Proof.
  intros P pw b HN H. unfold passphrase_bytes. rewrite HN, plain_nfc; [reflexivity|]. apply Forall_forall. exact H.
Qed.

(** ** The hypotheses can be met *)
(** The published functions, with this normal form, for the passphrase of the BIP's
    test vector (GREEK UPSILON WITH HOOK, COMBINING ACUTE ACCENT, NULL, DESERET
    CAPITAL LETTER LONG I, PILE OF POO): its bytes are those of the BIP. *)
Definition bip_passphrase : pystr := [0x3D2; 0x301; 0; 0x10400; 0x1F4A9]%N.
Example C83_bip_vector : nfc bip_passphrase = [0x3D3; 0; 0x10400; 0x1F4A9]%N /\
  forall available, passphrase_bytes (standard available nfc) bip_passphrase
    [xcf; x93; x00; xf0; x90; x90; x80; xf0; x9f; x92; xa9].
Proof.
  assert (E : utf8_encode (nfc bip_passphrase) = Ok [xcf; x93; x00; xf0; x90; x90; x80; xf0; x9f; x92; xa9]) by (vm_compute; reflexivity).
  split; [vm_compute; reflexivity|]. intros available. exact E.
Qed.
(** composed and decomposed spellings of one word, marks in either order, a Hangul syllable *)
Example C83_example :
  canonically_equivalent [0x63; 0x61; 0x66; 0xE9]%N [0x63; 0x61; 0x66; 0x65; 0x301]%N /\
  canonically_equivalent [0x71; 0x307; 0x323]%N [0x71; 0x323; 0x307]%N /\
  canonically_equivalent [0xD55C]%N [0x1112; 0x1161; 0x11AB]%N /\
  ~ canonically_equivalent [0x63; 0x61; 0x66; 0x65]%N [0x63; 0x61; 0x66; 0xE9]%N /\
  ~ canonically_equivalent [0x61; 0x301; 0x300]%N [0x61; 0x300; 0x301]%N.
Proof. rewrite !equivalent_iff. vm_compute. split; [reflexivity|]. split; [reflexivity|]. split; [reflexivity|]. split; discriminate. Qed.
Example C83_surrogate : forall available, ~ exists b, passphrase_bytes (standard available nfc) [0x61; 0xD800]%N b.
Proof.
  intros available H. apply (C83_encodable (standard available nfc)) with (c := 0xD800%N) in H; [|reflexivity|intros c [<-|[<-|[]]]; lia|right; left; reflexivity].
  apply H. unfold surrogate. lia.
Qed.
