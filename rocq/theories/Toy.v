(** * Toy: a small instance of the external functions, used only to show that
    the hypotheses of theorems can be met.  (Instances.v has the real ones;
    these are chosen so that the cases can be checked by computation.) *)
From Coq Require Import Lia.
From Verif Require Import Py Prims Spec PyFacts Cryptocurrencies Bip38 SpecSession.

(** a 32-byte "hash": the number 1 or 2, by the parity of the last byte *)
Definition toy_sha (b : bytes) : bytes := repeat x00 31 ++ [if Z.odd (byte_value (last b x00)) then x02 else x01].
Definition toy_scrypt (pw salt : bytes) (n r p : Z) (l : nat) : bytes :=
  firstn l (repeat x22 32 ++ pw ++ salt ++ repeat x33 l).
(** a "cipher" that depends on the first key byte *)
Definition toy_enc (k b : bytes) : bytes := rev (xor b (repeat (first_byte k) 16)).
Definition toy_dec (k b : bytes) : bytes := xor (rev b) (repeat (first_byte k) 16).
(** a "normal form" identifying the Angstrom sign with the letter A with ring *)
Definition toy_nfc (s : pystr) : pystr := List.map (fun c => if N.eqb c 0x212B then 0xC5%N else c) s.
Definition toy : prims :=
  {| h_sha256 := toy_sha; h_ripemd160 := None; h_scrypt := toy_scrypt;
     h_aes_enc := toy_enc; h_aes_dec := toy_dec; h_nfc := toy_nfc |}.
Lemma toy_ok : prims_ok toy.
Proof.
  split; cbn [h_sha256 h_ripemd160 h_scrypt h_aes_enc h_aes_dec toy].
  - reflexivity.
  - discriminate.
  - intros. unfold toy_scrypt. rewrite firstn_length, !app_length, !repeat_length. lia.
  - intros k b _ L. unfold toy_enc. rewrite rev_length, xor_length; [exact L|]. rewrite repeat_length. exact L.
  - intros k b _ L. unfold toy_dec. rewrite xor_length; rewrite rev_length; [exact L|]. rewrite repeat_length. exact L.
  - intros k b _ L. unfold toy_dec, toy_enc. rewrite rev_involutive. apply xor_cancel. rewrite repeat_length. exact L.
Qed.

(** BIP38(Bitcoin, "mainnet") *)
Definition btc : bip38 :=
  match bip38_init (CoinClass coin_Bitcoin) (str "mainnet") with
  | Ok s => s
  | Raise _ => {| s_cryptocurrency := coin_Bitcoin; s_networks := []; s_network := []; s_alphabet := [] |}
  end.
Lemma btc_coin_ok : coin_ok coin_Bitcoin.
Proof. intros n w a H. cbn in H. decompose [or] H; try contradiction; match goal with E : _ = _ |- _ => injection E as <- <- <- end; lia. Qed.
Lemma btc_session : session btc None 0x80 0x00.
Proof. exists coin_Bitcoin, (str "mainnet"). split; [exact btc_coin_ok|]. split; reflexivity. Qed.
Lemma btc_testnet_session : session btc (Some (str "testnet")) 0xef 0x6f.
Proof. exists coin_Bitcoin, (str "mainnet"). split; [exact btc_coin_ok|]. split; reflexivity. Qed.
