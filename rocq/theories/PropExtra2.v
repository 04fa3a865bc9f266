(** * C61-C64: the hash helpers (crypto.py), the exceptions of the codecs,
    addresses of other networks, encrypted keys with characters outside the
    alphabet; and C57 for the coin table. *)
From Coq Require Import Lia ZifyBool ZifyNat ZifyN.
From Verif Require Import ErrorFacts Py Prims Const Spec PyFacts Utils UtilsFacts Base58 Base58Facts Exceptions Crypto
  Curve SpecCurve CurveFacts CurveFacts2 Secp256k1 SecpFacts SpecRipemd Cryptocurrencies P2PKHAddress Wif Bip38 SpecBip38 SpecRecords SpecSession
  CodecFacts CodecFacts2 Bip38Facts Bip38Facts2 Sessions RecordFacts ECFacts Toy PropBase58 PropUtils PropHash PropCurve PropCodec PropSession PropDecrypt PropErrors PropEncrypt PropIntermediate PropUnique.

(** ** C61: the hash helpers take bytes or hexadecimal text *)
Definition denotes (arg : pyarg) (b : bytes) : Prop := arg = PBytes b \/ exists s, arg = PStr s /\ hex_string s b.
Lemma denotes_get arg b : denotes arg b -> get_bytes arg true = Ok b.
Proof. intros [-> | (s & -> & H)]; [apply get_bytes_bytes|apply C06_hex_string_kept, H]. Qed.
Theorem C61_hashes : forall P arg b, prims_ok P -> denotes arg b ->
  Crypto.sha256 P arg = Ok (h_sha256 P b) /\
  double_sha256 P arg = Ok (h_sha256 P (h_sha256 P b)) /\
  get_checksum P arg = Ok (firstn 4 (h_sha256 P (h_sha256 P b))) /\
  hash160 P arg = Ok (ripemd P (h_sha256 P b)) /\
  (zlen b < 2 ^ 61 -> crypto_ripemd160 P arg = Ok (ripemd P b)).
Proof.
  intros P arg b HP D. pose proof (denotes_get _ _ D) as G.
  assert (S : Crypto.sha256 P arg = Ok (h_sha256 P b)) by (unfold Crypto.sha256; rewrite G; reflexivity).
  assert (S2 : double_sha256 P arg = Ok (h_sha256 P (h_sha256 P b))) by (unfold double_sha256; rewrite S; apply sha256_eq).
  split; [exact S|]. split; [exact S2|]. split; [unfold get_checksum; rewrite S2; reflexivity|]. split.
  - unfold hash160. rewrite S. cbn [bind]. apply crypto_ripemd160_eq; [exact HP|]. unfold zlen. rewrite (sha256_len P HP). reflexivity.
  - intros L. pose proof (crypto_ripemd160_eq P b HP ltac:(lia)) as E. unfold crypto_ripemd160 in *. rewrite G, get_bytes_bytes in *. exact E.
Qed.
(** None and the other false objects count as no bytes; any other object is a TypeError. *)
Theorem C61_false_data : forall P arg, In arg [PNone; PStr []; POther false] ->
  Crypto.sha256 P arg = Crypto.sha256 P (PBytes []) /\ double_sha256 P arg = double_sha256 P (PBytes []) /\
  get_checksum P arg = get_checksum P (PBytes []) /\ hash160 P arg = hash160 P (PBytes []) /\
  crypto_ripemd160 P arg = crypto_ripemd160 P (PBytes []).
Proof. intros P arg H. cbn [In] in H. decompose [or] H; subst; try contradiction; repeat split; reflexivity. Qed.
Theorem C61_foreign_data : forall P,
  Crypto.sha256 P (POther true) = Raise (Builtin TypeError) /\ double_sha256 P (POther true) = Raise (Builtin TypeError) /\
  get_checksum P (POther true) = Raise (Builtin TypeError) /\ hash160 P (POther true) = Raise (Builtin TypeError) /\
  crypto_ripemd160 P (POther true) = Raise (Builtin TypeError).
Proof. intros P. repeat split. Qed.
(** Other text is a ValueError, never hashed as text. *)
Theorem C61_not_hex : forall P s, (forall b, ~ hex_string s b) ->
  Crypto.sha256 P (PStr s) = Raise (Builtin ValueError) /\ double_sha256 P (PStr s) = Raise (Builtin ValueError) /\
  get_checksum P (PStr s) = Raise (Builtin ValueError) /\ hash160 P (PStr s) = Raise (Builtin ValueError) /\
  crypto_ripemd160 P (PStr s) = Raise (Builtin ValueError).
Proof.
  intros P s H. apply C06_not_hex in H. unfold get_checksum, double_sha256, hash160, Crypto.sha256, crypto_ripemd160. rewrite H. repeat split.
Qed.
Example C61_example : denotes (PStr (str "00fF")) [x00; xff].
Proof. right. exists (str "00fF"). split; [reflexivity|]. apply fromhex_iff. reflexivity. Qed.

(** ** C62: exceptions of the codecs *)
Definition text_or_bytes (arg : pyarg) : Prop := (exists s, arg = PStr s) \/ (exists b, arg = PBytes b).
Definition encode_wif_exceptions : list exn_class := [Library CSecp256k1Error; Python ValueError].
Definition to_wif_exceptions : list exn_class := [Library CSecp256k1Error; Library CWIFError; Python ValueError; Python KeyError].
Definition decode_wif_exceptions : list exn_class := [Library CWIFError; Python UnicodeEncodeError].
Definition from_wif_exceptions : list exn_class := [Library CWIFError; Python UnicodeEncodeError; Python KeyError].
Definition address_encode_exceptions : list exn_class := [Library CSecp256k1Error; Python ValueError].
Definition address_decode_exceptions : list exn_class := [Library CAddressError; Python ValueError; Python UnicodeEncodeError].

Lemma get_bytes_class arg : text_or_bytes arg -> (exists b, get_bytes arg true = Ok b) \/ get_bytes arg true = Raise (Builtin ValueError).
Proof.
  intros [[s ->] | [b ->]]; [|left; exists b; apply get_bytes_bytes]. unfold get_bytes. destruct s as [|c s]; [left; eexists; reflexivity|].
  cbn [truthy negb]. destruct (fromhex (c :: s)); [left; eexists; reflexivity|right; reflexivity].
Qed.
Theorem C62_encode_wif : forall P arg w, prims_ok P -> 0 <= w -> text_or_bytes arg -> raises_only (encode_wif P arg w) encode_wif_exceptions.
Proof.
  intros P arg w HP Hw T e H. destruct (get_bytes_class arg T) as [[b G]|G].
  - destruct (Nat.eq_dec (List.length b) 32) as [L|L].
    + destruct (proj2 (C07_encode_wif P w (PBytes b) b (wif_of P w false b) (wif_of P w true b) HP Hw ltac:(left; reflexivity) L)) as [].
      { split; apply wif_of_text, Hw. }
      assert (X : encode_wif P arg w = encode_wif P (PBytes b) w).
      { unfold encode_wif. rewrite G, get_bytes_bytes. cbn [bind]. rewrite L. reflexivity. }
      pose proof (proj2 (C07_encode_wif P w (PBytes b) b (wif_of P w false b) (wif_of P w true b) HP Hw ltac:(left; reflexivity) L)
        (conj (wif_of_text P w false b Hw) (wif_of_text P w true b Hw))) as Y. rewrite X, Y in H. discriminate.
    + assert (N : exists n, (exists k, arg = PBytes k /\ n = zlen k) \/ (exists h, arg = PStr h /\ n = zlen h)).
      { destruct T as [[s ->] | [k ->]]; [exists (zlen s)|exists (zlen k)]; eauto. }
      destruct N as [n N]. rewrite (C08_key_length P arg b w n N G L) in H. member.
  - unfold encode_wif in H. rewrite G in H. cbn [bind] in H. member.
Qed.
Theorem C62_private_key_to_wif : forall P arg t coin n, prims_ok P -> coin_ok coin -> text_or_bytes arg ->
  raises_only (private_key_to_wif P arg t coin n) to_wif_exceptions.
Proof.
  intros P arg t coin n HP HC T e H. unfold private_key_to_wif in H. destruct (negb _); [rewrite lib_error_list in H by discriminate; member|].
  unfold wif_prefix_of in H. destruct (dict_get n (c_networks coin)) as [[w a]|] eqn:D; cbn [bind] in H; [|member].
  apply dict_get_in in D. destruct (HC _ _ _ D) as [Hw _].
  destruct (encode_wif P arg w) as [[u v]|e'] eqn:E; cbn [bind] in H; [discriminate|].
  pose proof (C62_encode_wif P arg w HP Hw T e' E) as I. assert (e' = e) by congruence. subst. cbn in *. tauto.
Qed.
Theorem C62_decode_wif : forall s w, 0 <= w -> raises_only (decode_wif s w) decode_wif_exceptions.
Proof. intros s w Hw e H. destruct (decode_wif_class s w e Hw H) as [[-> _]| ->]; cbn; tauto. Qed.
Theorem C62_from_wif : forall s coin n, coin_ok coin ->
  raises_only (wif_to_private_key s coin n) from_wif_exceptions /\ raises_only (get_wif_type s coin n) from_wif_exceptions /\
  raises_only (get_wif_checksum s coin n) from_wif_exceptions.
Proof.
  intros s coin n HC. unfold wif_to_private_key, get_wif_type, get_wif_checksum, wif_prefix_of.
  destruct (dict_get n (c_networks coin)) as [[w a]|] eqn:D; cbn [bind].
  2:{ split; [|split]; intros e H; member. }
  apply dict_get_in in D. destruct (HC _ _ _ D) as [Hw _].
  destruct (decode_wif s w) as [[[k t] ck]|e'] eqn:E; cbn [bind].
  - split; [|split]; intros e H; rewrite ?bytes_to_string_bytes in H; discriminate.
  - pose proof (C62_decode_wif s w Hw e' E) as I. split; [|split]; intros e H; assert (e' = e) by congruence; subst; cbn in *; tauto.
Qed.
(** The public_key argument: a PublicKey object (all of which hold curve points, C36), str or bytes *)
Definition address_argument (arg : pubkey_arg) : Prop :=
  (exists x y, arg = PKObj {| pk_x := x; pk_y := y |} /\ on_curve (Aff x y)) \/ exists d, arg = PKData d /\ text_or_bytes d.
Theorem C62_address_encode : forall P arg ap ty al, prims_ok P -> address_argument arg ->
  0 <= default 0 ap -> alphabet_ok (default bitcoin_alphabet al) ->
  raises_only (P2PKH_encode P arg ap ty al) address_encode_exceptions.
Proof.
  intros P arg ap ty al HP A Ha HA e H.
  assert (K : forall x y, on_curve (Aff x y) -> exists s, P2PKH_encode P (PKObj {| pk_x := x; pk_y := y |}) ap ty al = Ok s).
  { intros x y O. destruct (C11_roundtrip P (PKObj {| pk_x := x; pk_y := y |}) x y ap ty al HP O (or_introl eq_refl) Ha HA) as (s & l & E & _). eauto. }
  destruct A as [(x & y & -> & O)|(d & -> & T)].
  - destruct (K x y O) as [s E]. congruence.
  - destruct (integer_to_bytes_nonneg (default 0 ap) Ha) as (pre & EP & _).
    unfold P2PKH_encode in *. change default_address_prefix with 0 in *. rewrite EP in *. cbn [bind] in *.
    destruct (get_bytes_class d T) as [[b G]|G]; rewrite G in H; cbn [bind] in H; [|member].
    destruct (PublicKey_from_bytes b) as [[x y]|e'] eqn:E; cbn [bind] in H.
    + destruct (proj1 (C36_parse b x y)) as [O _]; [exists {| pk_x := x; pk_y := y |}; split; [exact E|split; reflexivity]|].
      destruct (K x y O) as [s Q]. congruence.
    + unfold PublicKey_from_bytes in E. destruct (point_coords b) as [[x y]|]; [destruct (valid_public_point x y); [discriminate|]|];
        assert (e' = Lib CSecp256k1Error "Invalid public key bytes") by congruence; assert (e = e') by congruence; subst; cbn; tauto.
Qed.
Theorem C62_address_decode : forall P s ap al, prims_ok P -> 0 <= default 0 ap -> alphabet_ok (default bitcoin_alphabet al) ->
  raises_only (P2PKH_decode P s ap al) address_decode_exceptions.
Proof.
  intros P s ap al HP Ha HA e H.
  destruct (C11_decode_otherwise P s ap al e HP Ha HA H) as [[_ ->]|[(_ & _ & ->)|(d & pre & _ & _ & [(_ & ->)|(_ & _ & ->)])]]; cbn; tauto.
Qed.
(** All of them occur.  In particular an unknown network is a KeyError here. *)
Theorem C62_unknown_network : forall P arg c s coin n, ~ In n (List.map fst (c_networks coin)) ->
  private_key_to_wif P arg (wif_name c) coin n = Raise (Builtin KeyError) /\ wif_to_private_key s coin n = Raise (Builtin KeyError) /\
  get_wif_type s coin n = Raise (Builtin KeyError) /\ get_wif_checksum s coin n = Raise (Builtin KeyError).
Proof.
  intros P arg c s coin n N. assert (D : dict_get n (c_networks coin) = None).
  { destruct (dict_get n (c_networks coin)) as [[w a]|] eqn:D; [|reflexivity]. exfalso. apply N. apply dict_get_in in D.
    apply in_map_iff. exists (n, (w, a)). auto. }
  unfold private_key_to_wif, wif_to_private_key, get_wif_type, get_wif_checksum, wif_prefix_of. rewrite D. cbn [bind].
  replace (str_in (wif_name c) WIF_TYPES) with true by (destruct c; reflexivity). repeat split.
Qed.
Lemma raised {A} (r : res A) e : r = Raise e -> raises r (class_of e). Proof. intros. exists e. auto. Qed.
Theorem C62_reached :
  (forall c, In c encode_wif_exceptions -> exists arg, text_or_bytes arg /\ raises (encode_wif toy arg 0x80) c) /\
  (forall c, In c to_wif_exceptions -> exists arg t n, text_or_bytes arg /\ raises (private_key_to_wif toy arg t coin_Bitcoin n) c) /\
  (forall c, In c decode_wif_exceptions -> exists s, raises (decode_wif s 0x80) c) /\
  (forall c, In c from_wif_exceptions -> exists s n, raises (wif_to_private_key s coin_Bitcoin n) c /\
     raises (get_wif_type s coin_Bitcoin n) c /\ raises (get_wif_checksum s coin_Bitcoin n) c) /\
  (forall c, In c address_encode_exceptions -> exists arg, address_argument arg /\ raises (P2PKH_encode toy arg None None None) c) /\
  (forall c, In c address_decode_exceptions -> exists s, raises (P2PKH_decode toy s None None) c).
Proof.
  assert (TS : forall s, text_or_bytes (PStr s)) by (intros s; left; eauto). assert (TB : forall b, text_or_bytes (PBytes b)) by (intros b; right; eauto).
  split; [|split; [|split; [|split; [|split]]]]; intros c H; cbn in H.
  - destruct H as [<-|[<-|[]]]; [exists (PBytes [x01])|exists (PStr (str "x"))]; (split; [auto|]); (eexists; split; [vm_compute; reflexivity|reflexivity]).
  - destruct H as [<-|[<-|[<-|[<-|[]]]]];
      [exists (PBytes [x01]), (str "wif"), (str "mainnet")|exists (PBytes [x01]), (str "x"), (str "mainnet")
      |exists (PStr (str "x")), (str "wif"), (str "mainnet")|exists (PBytes [x01]), (str "wif"), (str "moon")]; (split; [auto|]); (eexists; split; [vm_compute; reflexivity|reflexivity]).
  - destruct H as [<-|[<-|[]]]; [exists []|exists [0xE9%N]]; (eexists; split; [vm_compute; reflexivity|reflexivity]).
  - destruct H as [<-|[<-|[<-|[]]]]; [exists [], (str "mainnet")|exists [0xE9%N], (str "mainnet")|exists [], (str "moon")];
      (split; [|split]); (eexists; split; [vm_compute; reflexivity|reflexivity]).
  - destruct H as [<-|[<-|[]]]; [exists (PKData (PBytes []))|exists (PKData (PStr (str "x")))]; (split; [right; eexists; split; [reflexivity|auto]|]);
      (eexists; split; [vm_compute; reflexivity|reflexivity]).
  - destruct H as [<-|[<-|[<-|[]]]]; [exists (b58c toy [x01])|exists (str "1")|exists [0xE9%N]]; (eexists; split; [vm_compute; reflexivity|reflexivity]).
Qed.

Lemma app_inv_len {A} (a b c d : list A) : List.length b = List.length d -> a ++ b = c ++ d -> a = c /\ b = d.
Proof. intros L E. apply app_split; [|exact E]. apply (f_equal (@List.length A)) in E. rewrite !app_length in E. lia. Qed.
(** ** C63: addresses of other networks are refused *)
Lemma decode_of_text A d s : alphabet_ok A -> base_text A d s -> decode s A = Ok d.
Proof.
  intros HA T. destruct (C01_decode_encode A d HA) as (s' & E' & D').
  apply (C01_encode_is_base_text A _ _ HA) in E'. rewrite (base_text_fun A HA _ _ _ T E'). exact D'.
Qed.
Theorem C63_other_prefix : forall P A a a' c x y s, prims_ok P -> alphabet_ok A -> 0 <= a -> 0 <= a' -> a <> a' ->
  on_curve (Aff x y) -> address_text P A a c x y s -> exists text, P2PKH_decode P s (Some a') (Some A) = Raise (Lib CAddressError text).
Proof.
  intros P A a a' c x y s HP HA Ha Ha' NE O (pre & ser & M & SE & T).
  apply (decode_of_text A _ _ HA) in T.
  destruct (P2PKH_decode P s (Some a') (Some A)) as [h|e] eqn:D.
  - exfalso. apply (C11_decode_exact P s (Some a') (Some A) h HP Ha' HA) in D. cbn [default] in D. cbv zeta in D. destruct D as (pre' & h20 & M' & L' & _ & D).
    apply (C04_decode_exact A _ _ HA) in D. rewrite T in D. apply Ok_inj in D.
    assert (L4 : forall b, List.length (checksum4 P b) = 4%nat) by (intros; unfold checksum4, sha256d; rewrite firstn_length, (sha256_len P HP); reflexivity).
    apply app_inv_len in D; [|rewrite !L4; reflexivity]. destruct D as [D _].
    apply app_inv_len in D; [|rewrite L'; apply ripemd_length, HP]. destruct D as [D _]. subst pre'. apply NE. destruct M as [<- _], M' as [<- _]. reflexivity.
  - destruct (C11_decode_otherwise P s (Some a') (Some A) e HP Ha' HA D) as [[NA _]|[(_ & ND & _)|(d & pre' & _ & _ & [(_ & ->)|(_ & _ & ->)])]]; [| |eauto|eauto].
    + exfalso. rewrite (C04_non_ascii_rejected A s NA) in T. discriminate.
    + exfalso. exact (ND _ (proj1 (C04_decode_exact A _ _ HA) T)).
Qed.

Example C63_example : exists x y s, on_curve (Aff x y) /\ address_text toy bitcoin_alphabet 0 true x y s /\ 
  exists text, P2PKH_decode toy s (Some 0x6f) (Some bitcoin_alphabet) = Raise (Lib CAddressError text).
Proof.
  destruct (pubof_ok 1 ltac:(split; [lia|reflexivity])) as (_ & _ & O). revert O. generalize (pubof 1). intros k O.
  exists (pk_x k), (pk_y k), (addr toy 0 true k). pose proof (addr_text toy 0 true k ltac:(lia) O) as T. split; [apply O|]. split; [exact T|].
  apply (C63_other_prefix toy bitcoin_alphabet 0 0x6f true (pk_x k) (pk_y k) _ toy_ok bitcoin_ok ltac:(lia) ltac:(lia) ltac:(lia) ltac:(apply O) T).
Qed.

(** ** C64: an encrypted key may contain characters outside the alphabet *)
Lemma ends_1_57 ds : Forall (fun d => 0 <= d < 58) ds -> digits_value 58 ds mod 3364 = 115 -> exists us, ds = us ++ [1; 57].
Proof.
  intros F E. destruct (exists_last (l := ds)) as (u & d & ->); [intros ->; cbn in E; lia|].
  apply Forall_app in F. destruct F as [F Fd]. inversion Fd as [|? ? Hd _]; subst. rewrite digits_value_snoc in E.
  destruct (exists_last (l := u)) as (v & d' & ->); [intros ->; cbn in E; lia|].
  apply Forall_app in F. destruct F as [F Fd']. inversion Fd' as [|? ? Hd' _]; subst. rewrite digits_value_snoc in E.
  exists v. rewrite <- app_assoc. cbn [app]. set (x := digits_value 58 v) in E. clearbody x.
  assert (d = 57 /\ d' = 1) as [-> ->]; [|reflexivity].
  assert (M : ((x * 58 + d') * 58 + d) = x * 3364 + (d' * 58 + d)) by ring. rewrite M in E.
  rewrite Z.add_comm, Z_mod_plus_full, Z.mod_small in E by lia. lia.
Qed.
Theorem C64_outside_alphabet : forall P self network body ck e pw detail, prims_ok P -> constructed self ->
  List.length body = 39%nat -> List.length ck = 4%nat -> base58_text (body ++ ck) e ->
  exists e', In 48%N e' /\ ~ over bitcoin_alphabet e' /\
    decrypt P self e' pw network detail = decrypt P self e pw network detail.
Proof.
  intros P self network body ck e pw detail HP HC Lb Lc T.
  set (c := (115 - be2z body * 2 ^ 32) mod 3364).
  assert (Hc : 0 <= c < 3364) by (apply Z.mod_pos_bound; lia).
  destruct (b58_text (body ++ z2be 4 c)) as (k & b & ds & EB & S & C & V & TX).
  change (zlen bitcoin_alphabet) with 58 in C, V.
  destruct (ends_1_57 ds) as (us & ->); [apply C| |].
  { rewrite V, be_value_be2z, <- (be2z_zeros k b), <- EB, be2z_app, z2be_small_be2z by (cbn; lia).
    replace (zlen (z2be 4 c)) with 4 by (unfold zlen; rewrite z2be_length; reflexivity). change (256 ^ 4) with (2 ^ 32).
    unfold c. rewrite Z.add_mod_idemp_r by lia. replace (be2z body * 2 ^ 32 + (115 - be2z body * 2 ^ 32)) with 115 by ring. reflexivity. }
  rewrite map_app in TX. cbn [List.map] in TX. rewrite app_assoc in TX. set (u := repeat _ k ++ _) in TX.
  assert (OU : over bitcoin_alphabet u).
  { pose proof (text_over _ bitcoin_ok _ _ (b58_text (body ++ z2be 4 c))) as O. rewrite TX in O. apply Forall_app in O. apply O. }
  exists (u ++ [letter bitcoin_alphabet 2; 48%N] ++ []).
  assert (N0 : ~ In 48%N bitcoin_alphabet) by (vm_compute; intuition discriminate).
  assert (I0 : In 48%N (u ++ [letter bitcoin_alphabet 2; 48%N] ++ [])) by (apply in_or_app; right; cbn; auto).
  split; [exact I0|]. split; [intros O; apply N0; unfold over in O; rewrite Forall_forall in O; exact (O _ I0)|].
  transitivity (decrypt P self (b58 (body ++ z2be 4 c)) pw network detail).
  - unfold decrypt. rewrite TX, base58_alphabet_is.
    rewrite (C04_invalid_character_borrows bitcoin_alphabet u 2 48%N [] bitcoin_ok OU ltac:(constructor) ltac:(cbn; lia) ltac:(lia) N0).
    reflexivity.
  - apply (C19_any_checksum P self network body (z2be 4 c) ck); trivial. apply b58_text.
Qed.

(** Every key that [encrypt] returns has such a spelling. *)
Theorem C64_encrypted : forall P self network w a c k s pw e pw' detail, prims_ok P -> session self network w a ->
  List.length k = 32%nat -> wif_text P w c k s -> encrypt P self s pw network = Ok e ->
  exists e', In 48%N e' /\ ~ over bitcoin_alphabet e' /\ decrypt P self e' pw' network detail = decrypt P self e pw' network detail.
Proof.
  intros P self network w a c k s pw e pw' detail HP HS L T E.
  pose proof (C14_encrypt_wif P self network w a c k s pw e HP HS L T E) as (address & pwb & A & B & X).
  set (body := plain_record _ _ _ _ _) in X.
  apply (C64_outside_alphabet P self network body (checksum4 P body) e pw' detail HP (session_constructed _ _ _ _ HS)); [|apply checksum4_length, HP|exact X].
  destruct (session_net_sel _ _ _ _ HS) as (n & N). apply key_address_iff in A; [|apply (ns_a _ _ _ _ _ N)]. destruct A as [K ->].
  destruct (body_no_ec_split P HP c (ahash P a c (pubof (be2z k))) k pwb (ahash_length P HP _ _ _) L) as (e1 & e2 & EB & L1 & L2 & _).
  unfold body. change (plain_record P c (address_hash P (addr P a c (pubof (be2z k)))) k pwb) with (body_no_ec P c (ahash P a c (pubof (be2z k))) k pwb).
  rewrite EB, !app_length, (ahash_length P HP), L1, L2. reflexivity.
Qed.
Example C64_example : exists e', ~ over bitcoin_alphabet e' /\ exists s, wif_text toy 0x80 true (repeat x11 32) s /\
  decrypt toy btc e' (str "TestingOneTwoThree") None false = Ok (DWif s).
Proof.
  destruct C12_example as (s & e & T & E). assert (L : List.length (repeat x11 32) = 32%nat) by reflexivity.
  assert (Z : first_byte (repeat x11 32) <> x00) by (cbn; congruence).
  revert T L Z. generalize (repeat x11 32). intros k T L Z.
  destruct (C64_encrypted toy btc None 0x80 0 true k s _ e (str "TestingOneTwoThree") false toy_ok btc_session L T E) as (e' & _ & NO & D).
  exists e'. split; [exact NO|]. exists s. split; [exact T|]. rewrite D.
  exact (proj1 (C12_roundtrip _ _ _ _ _ _ _ _ _ _ toy_ok btc_session L T E Z)).
Qed.

(** ** C57 for the networks of the coin table *)
Lemma table_prefix_1 c n w a p : In c all_coins -> In (n, (w, a)) (c_networks c) -> minimal_bytes w p -> List.length p = 1%nat.
Proof.
  intros H I M. destruct (C39_table c H) as (_ & _ & TT). destruct (TT n w a I) as (_ & Hw & _).
  rewrite (minimal_unique _ _ M). assert (B : b2z (z2b w) = w) by (rewrite b2z_z2b; apply Z.mod_small; lia).
  unfold pre. rewrite <- B. rewrite one_byte. reflexivity.
Qed.
Theorem C57_table : forall P c n w a c' n' w' a' n0 self compressed k s pw, prims_ok P ->
  In c all_coins -> In (n, (w, a)) (c_networks c) -> In c' all_coins -> In (n', (w', a')) (c_networks c') ->
  bip38_init (CoinClass c) n0 = Ok self -> w <> w' -> List.length k = 32%nat -> wif_text P w' compressed k s ->
  encrypt P self s pw (Some n) = Raise (Lib CWIFError "Invalid Wallet Import Format (WIF)").
Proof.
  intros P c n w a c' n' w' a' n0 self comp k s pw HP H I H' I' E NE L T.
  assert (HS : session self (Some n) w a).
  { destruct (C39_table c H) as (_ & ND & TT). destruct (TT n w a I) as (NN & _).
    exists c, n0. split; [apply C39_coin_ok, H|]. split; [exact E|]. destruct n; [congruence|apply (dict_get_nodup _ _ _ ND I)]. }
  pose proof T as (p' & M' & _).
  assert (Hw : 0 <= w) by (destruct (C39_table c H) as (_ & _ & TT); destruct (TT n w a I) as (_ & Hw & _); lia).
  apply (C57_other_network P self (Some n) w a w' (pre w) p' comp k s pw HP HS L M' (pre_minimal w Hw)); [|congruence|exact T].
  rewrite (table_prefix_1 c' n' w' a' p' H' I' M'), (table_prefix_1 c n w a _ H I (pre_minimal w Hw)). reflexivity.
Qed.
Example C57_table_example : In coin_Bitcoin all_coins /\ In (str "mainnet", (0x80, 0)) (c_networks coin_Bitcoin) /\
  In (str "testnet", (0xef, 0x6f)) (c_networks coin_Bitcoin).
Proof. split; [|split]; cbn; tauto. Qed.
