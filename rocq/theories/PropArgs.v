(** * C70: bytes or hexadecimal text, for every argument that takes both *)
From Coq Require Import Lia ZifyBool ZifyNat ZifyN.
From Verif Require Import Exceptions ErrorFacts Py Prims Const Spec PyFacts Utils UtilsFacts Base58 Crypto
  Curve SpecCurve Secp256k1 P2PKHAddress Cryptocurrencies Wif Bip38 SpecBip38 SpecRecords SpecSession PropUtils PropIntermediate.

Lemma hex_get s b : hex_string s b -> get_bytes (PStr s) true = get_bytes (PBytes b) true.
Proof. intros H. rewrite (proj2 (C06_hex_string_kept s b H)), get_bytes_bytes. reflexivity. Qed.
Lemma hex_nonempty s b : hex_string s b -> b <> [] -> truthy (PStr s) = truthy (PBytes b).
Proof. intros H N. destruct H; [congruence| |]; destruct b; try congruence; reflexivity. Qed.

(** encode_wif, private_key_to_wif *)
Theorem C70_private_key : forall P s k w, hex_string s k -> List.length k = 32%nat ->
  encode_wif P (PStr s) w = encode_wif P (PBytes k) w /\
  forall wif_type cryptocurrency network,
    private_key_to_wif P (PStr s) wif_type cryptocurrency network = private_key_to_wif P (PBytes k) wif_type cryptocurrency network.
Proof.
  intros P s k w H L. assert (E : forall w, encode_wif P (PStr s) w = encode_wif P (PBytes k) w).
  { intros w'. unfold encode_wif. rewrite (hex_get _ _ H), get_bytes_bytes. cbn [bind]. rewrite L. reflexivity. }
  split; [apply E|]. intros t c n. unfold private_key_to_wif. destruct (negb _); [reflexivity|]. destruct (wif_prefix_of c n); cbn [bind]; [|reflexivity]. rewrite E. reflexivity.
Qed.
(** With a wrong length both fail alike, but the error counts characters of the text. *)
Theorem C70_private_key_length : forall P s k w, hex_string s k -> List.length k <> 32%nat ->
  encode_wif P (PStr s) w = Raise (Lib CSecp256k1Error (error_text "Invalid private key length" (str "64") (dec (zlen s)))) /\
  encode_wif P (PBytes k) w = Raise (Lib CSecp256k1Error (error_text "Invalid private key length" (str "64") (dec (zlen k)))).
Proof.
  intros P s k w H L. unfold encode_wif. rewrite (hex_get _ _ H), get_bytes_bytes. cbn [bind].
  destruct (Nat.eqb_spec (List.length k) 32); [contradiction|]. cbn [negb py_len bind]. rewrite !lib_error_other. split; reflexivity.
Qed.
(** P2PKHAddress.encode: bytes, text, or a PublicKey object made from them *)
Theorem C70_public_key : forall P s b prefix key_type alphabet, hex_string s b ->
  P2PKH_encode P (PKData (PStr s)) prefix key_type alphabet = P2PKH_encode P (PKData (PBytes b)) prefix key_type alphabet /\
  forall k, PublicKey_from_bytes b = Ok k -> P2PKH_encode P (PKObj k) prefix key_type alphabet = P2PKH_encode P (PKData (PBytes b)) prefix key_type alphabet.
Proof.
  intros P s b prefix t al H. unfold P2PKH_encode. rewrite (hex_get _ _ H), get_bytes_bytes. cbn [bind]. split; [reflexivity|]. intros k ->. reflexivity.
Qed.
(** intermediate_code and create_new_encrypted_wif, except for text without any byte *)
Theorem C70_salt : forall P random pw lot sequence s b, hex_string s b -> b <> [] ->
  intermediate_code P random pw lot sequence (PStr s) = intermediate_code P random pw lot sequence (PBytes b).
Proof. intros P random pw lot sequence s b H N. unfold intermediate_code. rewrite (hex_get _ _ H), (hex_nonempty _ _ H N). reflexivity. Qed.
Theorem C70_seed : forall P random self code wif_type network s b, hex_string s b -> b <> [] ->
  create_new_encrypted_wif P random self code wif_type (PStr s) network = create_new_encrypted_wif P random self code wif_type (PBytes b) network.
Proof. intros P random self code t network s b H N. unfold create_new_encrypted_wif. rewrite (hex_get _ _ H), (hex_nonempty _ _ H N). reflexivity. Qed.
(** White space only: not replaced by random bytes, as the empty text is.  As a salt it
    is refused; as a seed it stands for zero bytes, whatever the random source, so every
    such call makes the same key. *)
Lemma blank s : s <> [] -> Forall (fun c => In c [9; 10; 11; 12; 13; 32]%N) s -> hex_string s [] /\ truthy (PStr s) = true.
Proof.
  intros N F. split; [|destruct s; [congruence|reflexivity]]. clear N. induction F; [constructor|]. apply hex_space; assumption.
Qed.
Theorem C70_blank_salt : forall P random pw lot sequence s, s <> [] -> Forall (fun c => In c [9; 10; 11; 12; 13; 32]%N) s ->
  intermediate_code P random pw lot sequence (PStr s) = Raise (Lib CError (error_text "Invalid owner salt length" (str "'8', '16'") (str "0"))).
Proof.
  intros P random pw lot sequence s N F. destruct (blank s N F) as [H _].
  change (str "0") with (dec (2 * zlen (@nil byte))). apply (C22_salt_length P random (PStr s) []); [|discriminate|discriminate].
  right. right. exists s. split; [reflexivity|]. split; [exact N|]. apply fromhex_iff, H.
Qed.
Theorem C70_blank_seed : forall P random random' self code wif_type network s s', s <> [] -> Forall (fun c => In c [9; 10; 11; 12; 13; 32]%N) s ->
  s' <> [] -> Forall (fun c => In c [9; 10; 11; 12; 13; 32]%N) s' ->
  create_new_encrypted_wif P random self code wif_type (PStr s) network = create_new_encrypted_wif P random' self code wif_type (PStr s') network.
Proof.
  intros P random random' self code t network s s' N F N' F'. destruct (blank s N F) as [H T]. destruct (blank s' N' F') as [H' T'].
  unfold create_new_encrypted_wif. rewrite T, T', (hex_get _ _ H), (hex_get _ _ H'). reflexivity.
Qed.

(** Concrete cases: mixed case with spaces, and white space only *)
Example C70_example : hex_string (str "a50dBA67 72cb9383") [xa5; x0d; xba; x67; x72; xcb; x93; x83] /\
  Forall (fun c => In c [9; 10; 11; 12; 13; 32]%N) (str " ").
Proof. split; [apply fromhex_iff; vm_compute; reflexivity|]. constructor; [cbn; auto 8|constructor]. Qed.
Example C70_key_example : hex_string (hex (List.repeat x22 32)) (List.repeat x22 32) /\ List.length (List.repeat x22 32) = 32%nat.
Proof. split; [apply fromhex_iff; vm_compute; reflexivity|reflexivity]. Qed.
