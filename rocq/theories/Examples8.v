(** * Concrete cases for C102 and C104, with the toy functions of Toy.v *)
From Coq Require Import Lia ZifyBool ZifyNat ZifyN.
From Verif Require Import Exceptions ErrorFacts Py Prims Const Spec PyFacts Utils UtilsFacts Base58 Base58Facts Crypto
  Curve SpecCurve CurveFacts Secp256k1 SecpFacts P2PKHAddress Cryptocurrencies Wif Bip38 SpecBip38 SpecRecords SpecReads SpecSession SpecInterop SpecOutcome
  CodecFacts CodecFacts2 ReadFacts Bip38Facts Bip38Facts2 Sessions RecordFacts Toy PropBase58 PropUtils PropCodec PropSession PropEncrypt PropIntermediate PropDecrypt PropCreate PropEC PropMessages PropErrors PropUnique PropInterop PropLetters PropKinds PropTypo Examples Examples3.

(** ** C102: a text of each kind *)
Example C102_a_wif : accepted toy WalletImportFormat (b58 ([x80] ++ repeat x11 32 ++ [x01] ++ repeat x00 4)).
Proof. exists 0x80, (repeat x11 32, str "wif-compressed", repeat x00 4). split; [lia|]. vm_compute. reflexivity. Qed.
Example C102_an_address : accepted toy Address (b58c toy ([x00] ++ repeat x22 20)).
Proof. exists 0, (hex (repeat x22 20)). split; [lia|]. vm_compute. reflexivity. Qed.
Example C102_an_encrypted_key : exists s, accepted toy EncryptedKey s.
Proof. destruct C48_example as (e & s & D & _). exists e, btc, None, 0x80, 0, pwS, false, (DWif s). split; [exact btc_session|exact D]. Qed.
Example C102_codes : exists P code conf, prims_ok P /\ accepted P IntermediateCode code /\ accepted P ConfirmationCode conf.
Proof.
  set (f := repeat x22 32). assert (Lf : List.length f = 32%nat) by reflexivity.
  destruct (plain_creates f seed11 Lf) as (code & r & I & T & E); [discriminate|discriminate|discriminate|vm_compute; reflexivity|vm_compute; reflexivity|].
  destruct (plain_setup f seed11 Lf ltac:(discriminate) ltac:(discriminate)) as (_ & _ & _ & _ & _ & _ & _ & bx & by_ & _ & _ & _ & _ & _ & _ & Sc & _ & _ & Q & SB & _).
  destruct (C26_confirm_plain (world f) salt8 [] btc None 0x80 0 true pwS PNone salt8 code (PBytes seed11) seed11 r 1 bx by_ (x02 :: gx)
    (world_ok f Lf) btc_session random_salt eq_refl I seed11_arg E Sc Q SB) as (_ & d & D & _); [vm_compute; congruence|vm_compute; congruence|].
  exists (world f), code, (n_confirmation_code r). split; [exact (world_ok f Lf)|]. split.
  - exists btc, None, 0x80, 0, [], (wif_name true), (PBytes seed11), r. split; [exact btc_session|exact E].
  - exists btc, None, 0x80, 0, pwS, true, (CDetail d). split; [exact btc_session|exact D].
Qed.

(** ** C104 *)
Definition good_key : pystr := str "6PYJxKpVoUyHiX7Fcu32RXYqxsVSbGoVeNqsiSnGuiXtUBRad99UtvmwaX".
Definition misprint_key : pystr := str "6PYJxKpVoUyHiX7Fcu32RXYqxsVSbGoVeNqsiSnGuiXtUBRad991tvmwaX".
Definition swapped_key : pystr := str "6PYJxKpVoUyHiX7Fcu32RXYqxsVSbGoVeNqsiSnGuiXtUBRad9U9tvmwaX".
(** a key and two misprints of it, all opened by one passphrase (with a toy hash, that is
    the same for all addresses): three private keys *)
Example C104_decrypt_example : over bitcoin_alphabet good_key /\ typo 6 good_key misprint_key /\ typo 6 good_key swapped_key /\
  exists r r1 r2, decrypt toy btc good_key pwS None true = Ok r /\ decrypt toy btc misprint_key pwS None true = Ok r1 /\
    decrypt toy btc swapped_key pwS None true = Ok r2 /\ r <> r1 /\ r <> r2.
Proof.
  assert (O : over bitcoin_alphabet good_key) by (apply overb_ok; vm_compute; reflexivity).
  assert (T1 : typo 6 good_key misprint_key).
  { left. exists (firstn 51 good_key), 85%N, 49%N, (skipn 52 good_key). repeat split; try (vm_compute; reflexivity). discriminate. }
  assert (T2 : typo 6 good_key swapped_key).
  { right. exists (firstn 50 good_key), 57%N, 85%N, (skipn 52 good_key). repeat split; try (vm_compute; reflexivity). discriminate. }
  split; [exact O|]. split; [exact T1|]. split; [exact T2|].
  set (mk := fun h2 ck => [x01; x42] ++ [plain_flag true] ++ repeat x00 4 ++ repeat x60 16 ++ h2 ++ ck).
  assert (H : forall h2 ck s, List.length h2 = 16%nat -> List.length ck = 4%nat -> base58_reads s (mk h2 ck) ->
    1 <= be_value (plain_unmask toy pwSb (repeat x00 4) (repeat x60 16) h2) < secp_n ->
    first_byte (plain_unmask toy pwSb (repeat x00 4) (repeat x60 16) h2) <> x00 -> exists r, decrypt toy btc s pwS None true = Ok r).
  { intros h2 ck s L Lc R B F.
    destruct (C50_plain_outcome toy btc None 0x80 0 true (repeat x00 4) (repeat x60 16) h2 ck s pwS pwSb true toy_ok btc_session R eq_refl eq_refl L Lc pwS_toy) as (_ & _ & G).
    destruct (G B F) as (a & _ & _ & X). destruct (X eq_refl) as (d & _ & _ & _ & _ & E). eexists. exact E. }
  assert (R0 : base58_reads good_key (mk (repeat x60 16) (repeat x00 4))) by (apply reads_code; vm_compute; reflexivity).
  assert (R1 : base58_reads misprint_key (mk (repeat x60 14 ++ [x5f; x70]) [xaf; x15; xf7; x40])) by (apply reads_code; vm_compute; reflexivity).
  assert (R2 : base58_reads swapped_key (mk (repeat x60 14 ++ [x85; xdf]) [x3b; xc7; xd0; xc0])) by (apply reads_code; vm_compute; reflexivity).
  edestruct (fun a b => H _ _ _ a b R0) as (r & E); [reflexivity|reflexivity|vm_compute; split; congruence|discriminate|].
  edestruct (fun a b => H _ _ _ a b R1) as (r1 & E1); [reflexivity|reflexivity|vm_compute; split; congruence|discriminate|].
  edestruct (fun a b => H _ _ _ a b R2) as (r2 & E2); [reflexivity|reflexivity|vm_compute; split; congruence|discriminate|].
  exists r, r1, r2. split; [exact E|]. split; [exact E1|]. split; [exact E2|]. split.
  - apply (C104_decrypt_plain toy btc None 0x80 0 6 good_key misprint_key _ _ pwS true r r1 toy_ok btc_session O T1 (le_n 6) R0 R1 E E1).
  - apply (C104_decrypt_plain toy btc None 0x80 0 6 good_key swapped_key _ _ pwS true r r2 toy_ok btc_session O T2 (le_n 6) R0 R2 E E2).
Qed.
(** the last characters: another text, taken for the same key *)
Example C104_unnoticed_example : exists s', mistyped 0 good_key s' /\ over bitcoin_alphabet s' /\
  forall pw detail, decrypt toy btc s' pw None detail = decrypt toy btc good_key pw None detail.
Proof.
  assert (O : over bitcoin_alphabet good_key) by (apply overb_ok; vm_compute; reflexivity).
  exists (str "6PYJxKpVoUyHiX7Fcu32RXYqxsVSbGoVeNqsiSnGuiXtUBRad99UtvmwaY").
  split; [exists (firstn 57 good_key), 88%N, 89%N, []; repeat split; try (vm_compute; reflexivity); discriminate|].
  split; [apply overb_ok; vm_compute; reflexivity|]. intros pw detail.
  apply (C104_unnoticed_decrypt toy btc None (firstn 57 good_key) 88 89 [] good_key _ ([x01; x42] ++ [plain_flag true] ++ repeat x00 4 ++ repeat x60 32) (repeat x00 4)
    pw detail toy_ok (session_constructed _ _ _ _ btc_session)); try (vm_compute; reflexivity); [exact O|apply overb_ok; vm_compute; reflexivity|apply reads_code; vm_compute; reflexivity|discriminate|].
  vm_compute. split; congruence.
Qed.
(** a WIF, a misprint that is another key, and one that is not noticed *)
Example C104_wif_example : exists k k' c1 c2 c3,
  decode_wif (str "5HwoXVkHoRM8sL2KmNRS217n1g8mPPBomrY7yehCuXBzzuSCvzc") 0x80 = Ok (k, str "wif", c1) /\
  decode_wif (str "5HwoXVkHoRM8sL2KmNRS217n1g8mPPBomrY7yehCuXBz2uSCvzc") 0x80 = Ok (k', str "wif", c2) /\ k' <> k /\
  decode_wif (str "5HwoXVkHoRM8sL2KmNRS217n1g8mPPBomrY7yehCuXBzzvSCvzc") 0x80 = Ok (k, str "wif", c3) /\ c3 <> c1.
Proof. do 5 eexists. split; [vm_compute; reflexivity|]. split; [vm_compute; reflexivity|]. split; [discriminate|]. split; [vm_compute; reflexivity|discriminate]. Qed.
(** the first: six characters are after the misprint *)
Example C104_wif_hypotheses : let s := str "5HwoXVkHoRM8sL2KmNRS217n1g8mPPBomrY7yehCuXBzzuSCvzc" in
  over bitcoin_alphabet s /\ typo 6 s (str "5HwoXVkHoRM8sL2KmNRS217n1g8mPPBomrY7yehCuXBz2uSCvzc").
Proof.
  cbv zeta. split; [apply overb_ok; vm_compute; reflexivity|]. left.
  exists (str "5HwoXVkHoRM8sL2KmNRS217n1g8mPPBomrY7yehCuXBz"), 122%N, 50%N, (str "uSCvzc"). repeat split; try (vm_compute; reflexivity). discriminate.
Qed.
(** reading: characters outside the alphabet count as well *)
Example C104_read_example : over bitcoin_alphabet (str "1111") /\ typo 1 (str "1111") (str "11!1") /\
  base58_reads (str "1111") (repeat x00 4) /\ base58_reads (str "11!1") (repeat x00 2).
Proof.
  split; [apply overb_ok; vm_compute; reflexivity|]. split; [left; exists (str "11"), 49%N, 33%N, (str "1"); repeat split; discriminate|].
  split; apply reads_code; vm_compute; reflexivity.
Qed.
