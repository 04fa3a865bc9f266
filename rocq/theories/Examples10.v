(** * Concrete cases for C107, with the toy functions of Toy.v *)
From Coq Require Import Lia ZifyBool ZifyNat ZifyN.
From Verif Require Import Exceptions ErrorFacts Py Prims Const Spec PyFacts Utils UtilsFacts Base58 Base58Facts Crypto
  Curve SpecCurve CurveFacts Secp256k1 SecpFacts P2PKHAddress Cryptocurrencies Wif Bip38 SpecBip38 SpecRecords SpecReads SpecSession SpecInterop SpecOutcome SpecLetters
  CodecFacts CodecFacts2 ReadFacts Bip38Facts Bip38Facts2 Sessions RecordFacts Toy PropBase58 PropUtils PropCodec PropSession PropEncrypt PropIntermediate PropDecrypt PropShape PropCreate PropEC PropMessages PropErrors PropUnique PropInterop PropLetters PropKinds PropTypo PropSpace PropNest PropLooks Examples Examples3 Examples8.

Example C107_key_example : over bitcoin_alphabet good_key /\ accepted toy EncryptedKey good_key /\ shaped good_key 58 "6PY".
Proof.
  destruct C104_decrypt_example as (O & _ & _ & r & _ & _ & E & _). split; [exact O|]. split.
  - exists btc, None, 0x80, 0, pwS, true, r. split; [exact btc_session|exact E].
  - split; [vm_compute; reflexivity|]. eexists. vm_compute. reflexivity.
Qed.
(** one character missing, one typed twice *)
Example C107_missing_example : let t := (firstn 20 good_key ++ skipn 21 good_key)%list in let t' := (firstn 21 good_key ++ skipn 20 good_key)%list in
  ~ accepted toy EncryptedKey t /\ ~ accepted toy EncryptedKey t'.
Proof.
  destruct C107_key_example as (O & A & _). cbv zeta.
  split; apply (C107_other_length toy EncryptedKey good_key _ toy_ok (or_introl eq_refl) O); try exact A; try (apply overb_ok; vm_compute; reflexivity); vm_compute; discriminate.
Qed.
Example C107_codes_example : exists P code conf, prims_ok P /\ accepted P IntermediateCode code /\ accepted P ConfirmationCode conf /\
  over bitcoin_alphabet code /\ over bitcoin_alphabet conf.
Proof.
  set (f := repeat x22 32). assert (Lf : List.length f = 32%nat) by reflexivity.
  destruct (plain_creates f seed11 Lf) as (code & r & I & T & E); [discriminate|discriminate|discriminate|vm_compute; reflexivity|vm_compute; reflexivity|].
  destruct (plain_setup f seed11 Lf ltac:(discriminate) ltac:(discriminate)) as (_ & _ & _ & _ & _ & _ & _ & bx & by_ & _ & _ & _ & _ & _ & _ & Sc & _ & _ & Q & SB & _).
  destruct (C26_confirm_plain (world f) salt8 [] btc None 0x80 0 true pwS PNone salt8 code (PBytes seed11) seed11 r 1 bx by_ (x02 :: gx)
    (world_ok f Lf) btc_session random_salt eq_refl I seed11_arg E Sc Q SB) as (_ & d & D & _); [vm_compute; congruence|vm_compute; congruence|].
  exists (world f), code, (n_confirmation_code r). split; [exact (world_ok f Lf)|].
  split; [exists btc, None, 0x80, 0, [], (wif_name true), (PBytes seed11), r; split; [exact btc_session|exact E]|].
  split; [exists btc, None, 0x80, 0, pwS, true, (CDetail d); split; [exact btc_session|exact D]|].
  split.
  - destruct T as (pwb & e & x & y & _ & _ & _ & pp & _ & T). apply (text_over _ bitcoin_ok _ _ T).
  - destruct (C28_output (world f) [] btc None 0x80 0 code (wif_name true) (PBytes seed11) seed11 r (world_ok f Lf) btc_session seed11_arg E)
      as (lot' & c' & ent' & pp & px' & py' & e & x & y & ser & tail & tail' & _ & _ & _ & _ & _ & _ & _ & _ & _ & _ & _ & _ & _ & _ & T2 & _).
    apply (text_over _ bitcoin_ok _ _ T2).
Qed.
Example C107_wif_example : over bitcoin_alphabet (str "5HwoXVkHoRM8sL2KmNRS217n1g8mPPBomrY7yehCuXBzzuSCvzc") /\
  (exists k ck, decode_wif (str "5HwoXVkHoRM8sL2KmNRS217n1g8mPPBomrY7yehCuXBzzuSCvzc") 0x80 = Ok (k, wif_name false, ck)) /\
  In (0x80, ((51, "5"), (52, "KL")))%string wif_looks.
Proof. split; [apply overb_ok; vm_compute; reflexivity|]. split; [do 2 eexists; vm_compute; reflexivity|cbn; auto 30]. Qed.
Example C107_address_example : exists s h, over bitcoin_alphabet s /\ P2PKH_decode toy s (Some 0) None = Ok h.
Proof. exists (b58c toy ([x00] ++ repeat x22 20)). eexists. split; [apply overb_ok; vm_compute; reflexivity|vm_compute; reflexivity]. Qed.
