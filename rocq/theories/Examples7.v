(** * Concrete cases for C87, with the toy functions of Toy.v *)
From Coq Require Import Lia ZifyBool ZifyNat ZifyN.
From Verif Require Import Py Prims Const Spec PyFacts Utils UtilsFacts Base58 Base58Facts
  Curve SpecCurve CurveFacts CurveFacts2 Secp256k1 SecpFacts Cryptocurrencies Wif Bip38 SpecBip38 SpecRecords SpecSession SpecJson ExampleScripts
  CodecFacts CodecFacts2 Bip38Facts Bip38Facts2 Sessions RecordFacts ECFacts Toy PropEncrypt PropIntermediate PropDecrypt PropCreate PropEC PropScripts Examples.

Lemma bitcoin_ok : coin_ok coin_Bitcoin.
Proof. intros n w a I. cbn in I. repeat (destruct I as [I|I]; [injection I as <- <- <-; lia|]). contradiction. Qed.
Lemma bitcoin_main : dict_get (str "mainnet") (c_networks coin_Bitcoin) = Some (0x80, 0). Proof. vm_compute. reflexivity. Qed.
Lemma btc_init : bip38_init (CoinClass coin_Bitcoin) (str "mainnet") = Ok btc. Proof. vm_compute. reflexivity. Qed.

(** The JSON text of a dictionary with text outside ASCII, quotes and a negative number *)
Example C87_json_example : dumps (JObject [(str "a", JText [34; 92; 10; 233; 0x1F600]%N); (str "b", JInt (-5)); (str "c", JNull)]) =
  ([123; 10]%N ++ str "    " ++ [34; 97; 34]%N ++ str ": " ++ [34; 92; 34; 92; 92; 92]%N ++ str "n\u00e9\ud83d\ude00" ++ [34; 44; 10]%N ++
   str "    " ++ [34; 98; 34]%N ++ str ": -5," ++ [10]%N ++ str "    " ++ [34; 99; 34]%N ++ str ": null" ++ [10; 125]%N)%list.
Proof. vm_compute. reflexivity. Qed.

(** A script without EC multiplication *)
Example C87_plain_met : exists wif encrypted t, wif_text toy 0x80 true (repeat x11 32) wif /\
  no_ec_example toy coin_Bitcoin (str "mainnet") (str "TestingOneTwoThree") wif true =
    ([str "BIP38 Encrypted WIF: " ++ encrypted ++ [10%N]; str "BIP38 Decrypted: " ++ t ++ [10%N]], None)%list.
Proof.
  destruct C12_example as (s & e & T & E). assert (L : List.length (repeat x11 32) = 32%nat) by reflexivity.
  pose proof (C14_encrypt_wif _ _ _ _ _ _ _ _ _ _ toy_ok btc_session L T E) as (address & pwb & KA & B & _).
  pose proof KA as (e0 & _ & _ & K0 & _).
  destruct (proj1 (proj1 (C13_encrypt_succeeds_iff toy btc None 0x80 0 true _ e0 s _ pwb address toy_ok btc_session K0 T B KA)) (ex_intro _ e E)) as [Z0 Z1].
  destruct (C87_plain_script toy coin_Bitcoin (str "mainnet") 0x80 0 true (repeat x11 32) s (str "TestingOneTwoThree") pwb address
    toy_ok bitcoin_ok bitcoin_main L T B KA ltac:(discriminate) Z0 Z1) as (k & x & y & ser & enc & t & u & _ & _ & _ & _ & R & _).
  exists s, enc, t. auto.
Qed.
(** A script with EC multiplication *)
Example C87_ec_met : exists f out, ec_example (world f) salt8 [] coin_Bitcoin (str "mainnet") pwS PNone (PBytes seed11) (wif_name true) None None true = (out, None) /\
  List.length out = 4%nat.
Proof.
  set (f := repeat x22 32). assert (Lf : List.length f = 32%nat) by reflexivity. exists f.
  destruct (plain_creates f seed11 Lf) as (code & r & I & T & E); [discriminate|discriminate|discriminate|vm_compute; reflexivity|vm_compute; reflexivity|].
  destruct (plain_setup f seed11 Lf ltac:(discriminate) ltac:(discriminate)) as (_ & _ & _ & _ & _ & _ & _ & bx & by_ & _ & _ & _ & _ & _ & _ & Sc & _ & _ & Q & SB & _).
  destruct (C24_key_exists (world f) [] btc None 0x80 0 false true salt8 pwS pwSb code (PBytes seed11) seed11 r (world_ok f Lf) btc_session seed11_arg eq_refl (pwS_bytes _ _) T E)
    as (k & S & PK & KA & SM).
  pose proof (world_key f false salt8 seed11 k ltac:(auto) Lf owner22_ok ltac:(discriminate) ltac:(discriminate) PK) as Ek. cbv iota in Ek. subst k.
  destruct (mask_of f false salt8 r S Lf SM) as (t & TT & -> & Ht & LT).
  destruct (ec_example (world f) salt8 [] coin_Bitcoin (str "mainnet") pwS PNone (PBytes seed11) (wif_name true) None None true) as [out x] eqn:R.
  assert (LO : (2 <= List.length out)%nat).
  { exact (printed_two _ _ _ _ _ _ _ _ _ _ _ _ _ _ _ _ _ btc_init I E R). }
  destruct (C87_ec_script (world f) salt8 [] coin_Bitcoin (str "mainnet") 0x80 0 true pwS pwSb PNone salt8 (PBytes seed11) seed11 None salt8 (repeat x22 32) _ (n_address r)
    1 bx by_ (x02 :: gx) true out x (world_ok f Lf) bitcoin_ok bitcoin_main random_salt seed11_arg eq_refl (conj eq_refl eq_refl) (pwS_bytes _ _) PK KA SM Sc Q SB)
    as (ke & kx & ky & ser & code' & en & co & wif & t1 & t2 & t3 & _ & _ & _ & _ & _ & -> & -> & _).
  - discriminate.
  - destruct Ht as [-> | ->]; vm_compute; congruence.
  - discriminate.
  - vm_compute; congruence.
  - vm_compute; congruence.
  - exact R.
  - exact LO.
  - eexists. split; [reflexivity|]. reflexivity.
Qed.
