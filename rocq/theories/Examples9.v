(** * Concrete cases for C105 and C106, with the toy functions of Toy.v *)
From Coq Require Import Lia ZifyBool ZifyNat ZifyN.
From Verif Require Import Exceptions ErrorFacts Py Prims Const Spec PyFacts Utils UtilsFacts Base58 Base58Facts Crypto
  Curve SpecCurve CurveFacts Secp256k1 SecpFacts P2PKHAddress Cryptocurrencies Wif Bip38 SpecBip38 SpecRecords SpecReads SpecSession SpecInterop SpecOutcome
  CodecFacts CodecFacts2 ReadFacts Bip38Facts Bip38Facts2 Sessions RecordFacts Toy PropBase58 PropUtils PropCodec PropSession PropEncrypt PropIntermediate PropDecrypt PropCreate PropEC PropMessages PropErrors PropUnique PropInterop PropLetters PropKinds PropTypo PropSpace PropNest PropInFront Examples Examples3 Examples8.

Lemma foreignb y : forallb (fun c => (c <? 128)%N && negb (existsb (N.eqb c) bitcoin_alphabet)) y = true -> foreign y.
Proof.
  intros H. rewrite forallb_forall in H. apply Forall_forall. intros c I. specialize (H c I). apply andb_prop in H. destruct H as [H1 H2].
  split; [apply N.ltb_lt, H1|]. intros J. apply negb_true_iff in H2. assert (X : existsb (N.eqb c) bitcoin_alphabet = true); [|congruence].
  apply existsb_exists. exists c. split; [exact J|apply N.eqb_refl].
Qed.
Definition newline : pystr := [10]%N.
Definition crlf : pystr := [13; 10]%N.
Example newline_foreign : foreign newline. Proof. apply foreignb. vm_compute. reflexivity. Qed.
Example crlf_foreign : foreign crlf. Proof. apply foreignb. vm_compute. reflexivity. Qed.

(** a key that can be decrypted, a space in front of it, a line end behind it *)
Example C105_decrypt_example : (exists r, decrypt toy btc good_key pwS None true = Ok r) /\
  decrypt toy btc (32%N :: good_key) pwS None true = Raise (Lib CWIFError (error_text "Invalid encrypted WIF length" (str "43") (str "0"))) /\
  (exists p, decrypt toy btc (good_key ++ newline) pwS None true = Raise (Lib CError (error_text "Invalid prefix" (str "'0142', '0143'") p))) /\
  (exists n, 43 < n /\ decrypt toy btc (good_key ++ crlf) pwS None true = Raise (Lib CWIFError (error_text "Invalid encrypted WIF length" (str "43") (dec n)))).
Proof.
  destruct C104_decrypt_example as (O & _ & _ & r & r1 & r2 & E & _). split; [exists r; exact E|]. split.
  - destruct (C105_leading toy 32%N good_key toy_ok) as (_ & _ & _ & _ & X).
    + apply foreignb. vm_compute. reflexivity.
    + assert (X : forallb (fun c => (c <? 128)%N) good_key = true) by (vm_compute; reflexivity).
      apply Forall_forall. intros c I. rewrite forallb_forall in X. apply N.ltb_lt, X, I.
    + destruct (X btc None 0x80 0 pwS true btc_session) as (D & _). exact D.
  - pose proof (C105_decrypt toy btc None 0x80 0 btc None 0x80 0 good_key newline pwS pwS true true r toy_ok btc_session btc_session newline_foreign ltac:(discriminate) E) as (H1 & _).
    pose proof (C105_decrypt toy btc None 0x80 0 btc None 0x80 0 good_key crlf pwS pwS true true r toy_ok btc_session btc_session crlf_foreign ltac:(discriminate) E) as (_ & H2).
    split; [apply H1; reflexivity|apply H2; discriminate].
Qed.
(** a WIF: with a line end behind it, it is none *)
Example C105_wif_example : exists x, decode_wif (str "5HwoXVkHoRM8sL2KmNRS217n1g8mPPBomrY7yehCuXBzzuSCvzc") 0x80 = Ok x /\
  decode_wif (str "5HwoXVkHoRM8sL2KmNRS217n1g8mPPBomrY7yehCuXBzzuSCvzc" ++ newline)%list 0x80 = Raise (Lib CWIFError "Invalid Wallet Import Format (WIF)").
Proof. eexists. split; vm_compute; reflexivity. Qed.
(** an address of a coin whose prefix is not zero *)
Example C105_address_example : exists h e, P2PKH_decode toy (b58c toy ([x1e] ++ repeat x22 20)) (Some 0x1e) None = Ok h /\
  P2PKH_decode toy (b58c toy ([x1e] ++ repeat x22 20) ++ newline)%list (Some 0x1e) None = Raise e.
Proof. do 2 eexists. split; vm_compute; reflexivity. Qed.
(** codes *)
Example C105_codes_example : exists P code conf self t, prims_ok P /\ accepted P IntermediateCode code /\ accepted P ConfirmationCode conf /\
  confirm_code P self pwS (conf ++ newline) None true = Raise (Lib CError t).
Proof.
  destruct C102_codes as (P & code & conf & HP & A & B). pose proof B as (self & network & w & a & pw & detail & r & HS & E).
  destruct (C105_confirm_code P self network w a self network w a conf newline pw pw detail detail r HP HS HS newline_foreign ltac:(discriminate) E) as (t & _).
  destruct (C105_confirm_code P self network w a btc None 0x80 0 conf newline pw pwS detail true r HP HS btc_session newline_foreign ltac:(discriminate) E) as (t' & E').
  exists P, code, conf, btc, t'. auto.
Qed.
(** nothing but first letters: a text of value zero; here a character behind is lost *)
Example C105_zero_example : base58_reads (str "1111") (repeat x00 4) /\ base58_reads (str "1111" ++ newline)%list (repeat x00 4).
Proof. split; apply reads_code; vm_compute; reflexivity. Qed.

(** ** C106 *)
(** a key pasted twice *)
Example C106_decrypt_example : within good_key (good_key ++ good_key) /\ (exists r, decrypt toy btc good_key pwS None true = Ok r) /\
  forall self network w a pw detail r, session self network w a -> decrypt toy self (good_key ++ good_key) pw network detail <> Ok r.
Proof.
  assert (W : within good_key (good_key ++ good_key)) by (exists [], good_key; split; [right; discriminate|reflexivity]).
  destruct C104_decrypt_example as (_ & _ & _ & r0 & _ & _ & E & _). split; [exact W|]. split; [exists r0; exact E|].
  intros self network w a pw detail r HS. exact (C106_decrypt toy btc None 0x80 0 self network w a good_key _ pwS pw true detail r0 r toy_ok btc_session HS W E).
Qed.
(** codes: around a confirmation code, the longest kind, nothing is accepted *)
Example C106_codes_example : exists P code conf, prims_ok P /\ accepted P IntermediateCode code /\ accepted P ConfirmationCode conf /\
  forall k s, In k codes -> within conf s -> ~ accepted P k s.
Proof.
  destruct C102_codes as (P & code & conf & HP & A & B). exists P, code, conf. split; [exact HP|]. split; [exact A|]. split; [exact B|].
  intros k s J W C. pose proof (C106_codes P ConfirmationCode k conf s HP (or_intror (or_intror (or_introl eq_refl))) J W B C) as X.
  destruct J as [<-|[<-|[<-|[]]]]; exact X.
Qed.
(** WIFs: one letter more behind, a letter in front, the letter L in front *)
Definition a_wif : pystr := str "5HwoXVkHoRM8sL2KmNRS217n1g8mPPBomrY7yehCuXBzzuSCvzc".
Example C106_wif_example : (exists x, decode_wif a_wif 0x80 = Ok x) /\
  decode_wif (a_wif ++ str "c")%list 0x80 = Raise (Lib CWIFError "Invalid Wallet Import Format (WIF)") /\
  decode_wif (str "K" ++ a_wif)%list 0x80 = Raise (Lib CWIFError "Invalid Wallet Import Format (WIF)").
Proof. split; [eexists|split]; vm_compute; reflexivity. Qed.
Example C106_letter_L_example : over bitcoin_alphabet a_wif /\ exists k k' ck ck', decode_wif a_wif 0x80 = Ok (k, str "wif", ck) /\
  decode_wif (str "L" ++ a_wif)%list 0x80 = Ok (k', str "wif-compressed", ck') /\ k' <> k.
Proof.
  split; [apply overb_ok; vm_compute; reflexivity|]. do 4 eexists. split; [vm_compute; reflexivity|]. split; [vm_compute; reflexivity|discriminate].
Qed.
Example C106_address_example : exists h e, P2PKH_decode toy (b58c toy ([x1e] ++ repeat x22 20)) (Some 0x1e) None = Ok h /\
  P2PKH_decode toy (str "D" ++ b58c toy ([x1e] ++ repeat x22 20))%list (Some 0x1e) None = Raise e.
Proof. do 2 eexists. split; vm_compute; reflexivity. Qed.
Example C106_address_zero_example : exists s, s = b58c toy ([x00] ++ repeat x22 20) /\ P2PKH_decode toy s (Some 0) None = Ok (hex (repeat x22 20)) /\
  forall y1 y2 h', (y1 <> [] \/ y2 <> []) -> over bitcoin_alphabet (y1 ++ s ++ y2) -> P2PKH_decode toy (y1 ++ s ++ y2) (Some 0) None <> Ok h'.
Proof.
  eexists. split; [reflexivity|]. assert (D : P2PKH_decode toy (b58c toy ([x00] ++ repeat x22 20)) (Some 0) None = Ok (hex (repeat x22 20))) by (vm_compute; reflexivity).
  split; [exact D|]. intros y1 y2 h' NY O. set (s := b58c toy ([x00] ++ repeat x22 20)) in *; apply (C106_address_zero toy s (y1 ++ s ++ y2)%list (repeat x22 20) h' toy_ok); [exists y1, y2; split; [exact NY|reflexivity]|exact O|vm_compute; discriminate|reflexivity|exact D].
Qed.
Example C106_encrypt_letter_L_example : prims_ok toy /\ session btc None 0x80 0 /\ over bitcoin_alphabet a_wif /\
  exists s' e k', scalar k' e /\ wif_text toy 0x80 true k' s' /\ encrypt toy btc (str "L" ++ a_wif)%list pwS None = encrypt toy btc s' pwS None.
Proof.
  split; [exact toy_ok|]. split; [exact btc_session|]. destruct C106_letter_L_example as (O & k & k2 & ck & ck2 & D & _). split; [exact O|].
  destruct (C106_encrypt_letter_L toy btc None 0 a_wif k ck toy_ok btc_session O D) as (k' & e & s' & SK & W & H). exists s', e, k'. auto.
Qed.
Example C106_only_L_example : within a_wif (str "L" ++ a_wif)%list /\ over bitcoin_alphabet (str "L" ++ a_wif)%list /\
  exists k k' ty ty' ck ck', decode_wif a_wif 0x80 = Ok (k, ty, ck) /\ decode_wif (str "L" ++ a_wif)%list 0x80 = Ok (k', ty', ck').
Proof.
  split; [exists (str "L"), []; split; [left; discriminate|rewrite app_nil_r; reflexivity]|]. split; [apply overb_ok; vm_compute; reflexivity|].
  do 6 eexists. split; vm_compute; reflexivity.
Qed.
(** Litecoin: the letter T, and a letter that is not in the table *)
Definition a_litecoin_wif : pystr := str "6uP3wSb2Rob9x2ZE1NBvjMGbmE15mRxZbaQdSKMhHcqyX9VP6vz".
Example C106_in_front_example : exists k ck, decode_wif a_litecoin_wif 0xb0 = Ok (k, str "wif", ck) /\ over bitcoin_alphabet (str "T" ++ a_litecoin_wif)%list /\
  within a_litecoin_wif (str "T" ++ a_litecoin_wif)%list /\ (exists k' ck', decode_wif (str "T" ++ a_litecoin_wif)%list 0xb0 = Ok (k', str "wif-compressed", ck')) /\
  decode_wif (str "S" ++ a_litecoin_wif)%list 0xb0 = Raise (Lib CWIFError "Invalid Wallet Import Format (WIF)").
Proof.
  do 2 eexists. split; [vm_compute; reflexivity|]. split; [apply overb_ok; vm_compute; reflexivity|].
  split; [exists (str "T"), []; split; [left; discriminate|rewrite app_nil_r; reflexivity]|]. split; [do 2 eexists; vm_compute; reflexivity|vm_compute; reflexivity].
Qed.
(** BIP38(Litecoin, "mainnet") *)
Definition ltc : bip38 :=
  {| s_cryptocurrency := coin_Litecoin; s_networks := List.map fst (c_networks coin_Litecoin); s_network := str "mainnet"; s_alphabet := Bitcoin_ALPHABET |}.
Example C106_encrypt_in_front_example : exists a k ck, session ltc None 0xb0 a /\ In (0xb0, "T"%string) letters_in_front /\ over bitcoin_alphabet a_litecoin_wif /\
  decode_wif a_litecoin_wif 0xb0 = Ok (k, str "wif", ck) /\
  exists k' s', List.length k' = 32%nat /\ wif_text toy 0xb0 true k' s' /\ encrypt toy ltc (str "T" ++ a_litecoin_wif)%list pwS None = encrypt toy ltc s' pwS None.
Proof.
  assert (HS : exists a, session ltc None 0xb0 a).
  { eexists. exists coin_Litecoin, (str "mainnet"). split; [apply C39_coin_ok; unfold all_coins; cbn [In]; tauto|]. split; [vm_compute; reflexivity|vm_compute; reflexivity]. }
  destruct HS as (a & HS), C106_in_front_example as (k & ck & D & O & _). assert (O' : over bitcoin_alphabet a_litecoin_wif) by (apply (over_cut _ _ O)).
  assert (J : In (0xb0, "T"%string) letters_in_front) by (cbn; tauto).
  exists a, k, ck. split; [exact HS|]. split; [exact J|]. split; [exact O'|]. split; [exact D|].
  destruct (C106_encrypt_in_front toy ltc None 0xb0 a "T" a_litecoin_wif k ck toy_ok HS ltac:(lia) J O' D) as (k' & s' & L & W & H). exists k', s'. auto.
Qed.
Example C106_decode_example : within (str "2g") (str "12gx") /\ decode (str "2g") bitcoin_alphabet = Ok [x61] /\ be_value [x61] <> 0 /\
  exists d', decode (str "12gx") bitcoin_alphabet = Ok d'.
Proof. split; [exists (str "1"), (str "x"); split; [left; discriminate|reflexivity]|]. split; [vm_compute; reflexivity|]. split; [vm_compute; discriminate|]. eexists. vm_compute. reflexivity. Qed.
