(** * PropSession: C31, C32, C39, C40 - the constructor, network selection, the
    coin table and the coin's own alphabet. *)
From Coq Require Import Lia ZifyBool ZifyNat ZifyN.
From Verif Require Import Exceptions ErrorFacts Py Prims Const Spec PyFacts Utils UtilsFacts Base58 Base58Facts
  Curve SpecCurve Secp256k1 SecpFacts Cryptocurrencies Wif Bip38 SpecBip38 SpecRecords SpecSession
  CodecFacts CodecFacts2 Bip38Facts Bip38Facts2 Sessions RecordFacts ECFacts Toy PropEncrypt PropDecrypt PropIntermediate PropCreate PropEC PropCodec.

(** ** C32: the constructor *)
Theorem C32_constructor : forall c n self, bip38_init (CoinClass c) n = Ok self <->
  In n (List.map fst (c_networks c)) /\ s_cryptocurrency self = c /\ s_network self = n /\
  s_networks self = List.map fst (c_networks c) /\
  s_alphabet self = match c_alphabet c with Some (x :: a) => x :: a | _ => bitcoin_alphabet end.
Proof.
  intros c n self. unfold bip38_init. destruct (str_in n (List.map fst (c_networks c))) eqn:E; cbn [negb].
  - apply str_in_spec in E. split.
    + intros H. apply Ok_inj in H. subst self. cbn [s_cryptocurrency s_network s_networks s_alphabet]. rewrite Bitcoin_ALPHABET_is. auto.
    + intros (_ & H1 & H2 & H3 & H4). f_equal. destruct self as [c' ns n' al]. cbn [s_cryptocurrency s_network s_networks s_alphabet] in *. subst. rewrite Bitcoin_ALPHABET_is. reflexivity.
  - split; [discriminate|]. intros (H & _). apply str_in_spec in H. congruence.
Qed.
Theorem C32_rejects : forall n,
  (forall c, ~ In n (List.map fst (c_networks c)) -> bip38_init (CoinClass c) n =
     Raise (Lib CNetworkError
       match c_networks c with
       | [] => str "Wrong network type"
       | _ => error_text "Wrong network type" (quoted_list (List.map fst (c_networks c))) (str "<class 'str'>")
       end)) /\
  (forall metaclass, bip38_init (OtherClass metaclass) n =
     Raise (Lib CCryptocurrencyError
       (error_text "Invalid cryptocurrency sub-class" (str "typing.Type[bip38.cryptocurrencies.ICryptocurrency]") metaclass))) /\
  (** the base class has no table, and a non-class is not a class *)
  bip38_init BaseClass n = Raise (Builtin AttributeError) /\
  bip38_init NotAClass n = Raise (Builtin TypeError).
Proof.
  intros n. split; [|split; [intros m; unfold bip38_init; rewrite lib_error_other; reflexivity|split; reflexivity]]. intros c H. unfold bip38_init. destruct (str_in n (List.map fst (c_networks c))) eqn:E.
  - apply str_in_spec in E. contradiction.
  - cbn [negb]. destruct (c_networks c) as [|x r]; [reflexivity|]. cbn [List.map]. rewrite lib_error_list by discriminate. reflexivity.
Qed.
Example C32_example : (exists self, bip38_init (CoinClass coin_Litecoin) (str "testnet") = Ok self /\ s_network self = str "testnet") /\
  bip38_init (CoinClass coin_Ripple) (str "testnet") = Raise (Lib CNetworkError "Wrong network type, (expected: 'mainnet' | got: '<class 'str'>')") /\
  bip38_init (OtherClass (str "<class 'type'>")) (str "mainnet") =
    Raise (Lib CCryptocurrencyError "Invalid cryptocurrency sub-class, (expected: typing.Type[bip38.cryptocurrencies.ICryptocurrency] | got: '<class 'type'>')").
Proof. split; [eexists; split|split]; reflexivity. Qed.

(** ** C31: network selection *)
(** A name outside the coin's table: NetworkError, whatever the other arguments. *)
Theorem C31_unknown_network : forall P c n0 self network, bip38_init (CoinClass c) n0 = Ok self ->
  ~ In (chosen network n0) (List.map fst (c_networks c)) ->
  let e := Lib CNetworkError (error_text "Wrong network type" (quoted_list (List.map fst (c_networks c))) (str "<class 'str'>")) in
  (forall wif pw, encrypt P self wif pw network = Raise e) /\
  (forall random code t seed, create_new_encrypted_wif P random self code t seed network = Raise e) /\
  (forall pw code detail, confirm_code P self pw code network detail = Raise e) /\
  (forall s pw detail, decrypt P self s pw network detail = Raise e).
Proof.
  intros P c n0 self network I H e. destruct (init_inv _ _ _ I) as (Ec & En & E0 & IN).
  assert (S : select_network self network = Raise e).
  { unfold e. rewrite <- En in *. apply (select_error self network n0 E0); [|exact H]. intros X. rewrite X in IN. destruct IN. }
  split; [intros; apply encrypt_no_net, S|]. split; [intros; apply create_no_net, S|]. split; [intros; apply confirm_no_net, S|].
  intros; apply decrypt_no_net, S.
Qed.
(** A missing or empty name stands for the instance's network. *)
Theorem C31_default_network : forall P self network, network = None \/ network = Some [] ->
  let network' := Some (s_network self) in
  (forall wif pw, encrypt P self wif pw network = encrypt P self wif pw network') /\
  (forall random code t seed, create_new_encrypted_wif P random self code t seed network = create_new_encrypted_wif P random self code t seed network') /\
  (forall pw code detail, confirm_code P self pw code network detail = confirm_code P self pw code network' detail) /\
  (forall s pw detail, decrypt P self s pw network detail = decrypt P self s pw network' detail).
Proof.
  intros P self network H network'.
  assert (S : select_network self network = select_network self network').
  { unfold select_network, network'. destruct H as [-> | ->]; destruct (s_network self); reflexivity. }
  unfold encrypt, create_new_encrypted_wif, confirm_code, decrypt. rewrite S. repeat split; intros; reflexivity.
Qed.
Lemma decrypt_prefixes P self network n self' network' n' w a s pw detail : prims_ok P ->
  net_sel self network n w a -> net_sel self' network' n' w a ->
  decrypt P self s pw network detail = decrypt P self' s pw network' detail.
Proof.
  intros HP N N'. destruct (is_ascii_dec s) as [I|I].
  - destruct (decode_ascii58 s I) as [d D]. destruct (Nat.eq_dec (List.length d) 43) as [L|L].
    + destruct (cut43 d L) as (p & f & ah & e1 & e2 & ck & -> & Lp & La & L1 & L2 & Lc).
      rewrite (decrypt_eq P HP _ _ _ _ _ _ _ _ _ _ _ _ pw detail N D Lp La L1 L2 Lc).
      rewrite (decrypt_eq P HP _ _ _ _ _ _ _ _ _ _ _ _ pw detail N' D Lp La L1 L2 Lc). reflexivity.
    + rewrite (decrypt_bad_length P _ _ _ _ _ _ _ pw detail N D L), (decrypt_bad_length P _ _ _ _ _ _ _ pw detail N' D L). reflexivity.
  - rewrite (decrypt_non_ascii P _ _ _ _ _ _ pw detail N I), (decrypt_non_ascii P _ _ _ _ _ _ pw detail N' I). reflexivity.
Qed.
Lemma confirm_prefixes P self network n self' network' n' w w' a s pw detail : prims_ok P ->
  net_sel self network n w a -> net_sel self' network' n' w' a ->
  confirm_code P self pw s network detail = confirm_code P self' pw s network' detail.
Proof.
  intros HP N N'. pose proof (confirm_bad P _ _ _ _ _ s pw detail N) as B. pose proof (confirm_bad P _ _ _ _ _ s pw detail N') as B'.
  destruct (check_decode P s base58_alphabet) as [d|e] eqn:D; [|congruence].
  destruct (Nat.eq_dec (List.length d) 51) as [L|L]; [|rewrite B, B' by exact L; reflexivity].
  destruct (cut51 d L) as (p & f & ah & ent & b0 & q1 & q2 & -> & Lp & La & Le & L1 & L2).
  rewrite (confirm_eq P HP _ _ _ _ _ _ _ _ _ _ _ _ _ pw detail N D Lp La Le L1 L2).
  rewrite (confirm_eq P HP _ _ _ _ _ _ _ _ _ _ _ _ _ pw detail N' D Lp La Le L1 L2). reflexivity.
Qed.
(** Results depend on coin and network only through the two prefixes: any two
    instances and network arguments with equal prefixes behave alike. *)
Theorem C31_only_prefixes : forall P self network self' network' w a, prims_ok P ->
  session self network w a -> session self' network' w a ->
  (forall wif pw, encrypt P self wif pw network = encrypt P self' wif pw network') /\
  (forall random code t seed, create_new_encrypted_wif P random self code t seed network = create_new_encrypted_wif P random self' code t seed network') /\
  (forall pw code detail, confirm_code P self pw code network detail = confirm_code P self' pw code network' detail) /\
  (forall s pw detail, decrypt P self s pw network detail = decrypt P self' s pw network' detail).
Proof.
  intros P self network self' network' w a HP HS HS'.
  destruct (session_net_sel _ _ _ _ HS) as (n & N). destruct (session_net_sel _ _ _ _ HS') as (n' & N').
  split; [|split; [|split]].
  - intros wif pw. rewrite (encrypt_eq P HP _ _ _ _ _ _ _ N), (encrypt_eq P HP _ _ _ _ _ _ _ N'). reflexivity.
  - intros random code t seed. rewrite (create_eq P HP _ _ _ _ _ _ _ _ _ N), (create_eq P HP _ _ _ _ _ _ _ _ _ N'). reflexivity.
  - intros pw code detail. apply (confirm_prefixes P _ _ _ _ _ _ _ _ _ _ _ _ HP N N').
  - intros s pw detail. apply (decrypt_prefixes P _ _ _ _ _ _ _ _ _ _ _ HP N N').
Qed.
(** create_new_encrypted_wif and confirm_code look at the address prefix alone. *)
Theorem C31_only_address_prefix : forall P self network self' network' w w' a, prims_ok P ->
  session self network w a -> session self' network' w' a ->
  (forall random code t seed, create_new_encrypted_wif P random self code t seed network = create_new_encrypted_wif P random self' code t seed network') /\
  (forall pw code detail, confirm_code P self pw code network detail = confirm_code P self' pw code network' detail).
Proof.
  intros P self network self' network' w w' a HP HS HS'.
  destruct (session_net_sel _ _ _ _ HS) as (n & N). destruct (session_net_sel _ _ _ _ HS') as (n' & N'). split.
  - intros random code t seed. rewrite (create_eq P HP _ _ _ _ _ _ _ _ _ N), (create_eq P HP _ _ _ _ _ _ _ _ _ N'). reflexivity.
  - intros pw code detail. apply (confirm_prefixes P _ _ _ _ _ _ _ _ _ _ _ _ HP N N').
Qed.
(** Bitcoin's testnet and regtest *)
Example C31_example : session btc (Some (str "testnet")) 0xef 0x6f /\ session btc (Some (str "regtest")) 0xef 0x6f /\
  ~ In (chosen (Some (str "Testnet")) (str "mainnet")) (List.map fst (c_networks coin_Bitcoin)).
Proof.
  split; [exact btc_testnet_session|]. split.
  - exists coin_Bitcoin, (str "mainnet"). split; [exact btc_coin_ok|]. split; reflexivity.
  - cbn. intuition discriminate.
Qed.

(** ** C39: the coin table *)
Definition coin_table_ok (c : coin) : bool :=
  negb (Nat.eqb (List.length (c_networks c)) 0) &&
  forallb (fun e => let '(n, (w, a)) := e in
    (1 <=? w) && (w <=? 255) && (0 <=? a) && (a <=? 65535) && negb (str_eqb n [])) (c_networks c) &&
  (fix distinct l := match l with [] => true | x :: r => negb (str_in x r) && distinct r end) (List.map fst (c_networks c)).
Lemma table_ok : forallb coin_table_ok all_coins = true.
Proof. vm_compute. reflexivity. Qed.
Lemma distinct_ok l : (fix distinct l := match l with [] => true | x :: r => negb (str_in x r) && distinct r end) l = true -> NoDup l.
Proof.
  induction l as [|x r IH]; [constructor|]. intros H. apply andb_true_iff in H. destruct H as [H1 H2]. constructor; [|apply IH, H2].
  intros I. apply str_in_spec in I. rewrite I in H1. discriminate.
Qed.
Lemma coin_table c : In c all_coins -> coin_table_ok c = true.
Proof. intros H. pose proof table_ok as T. rewrite forallb_forall in T. apply T, H. Qed.
Theorem C39_table : forall c, In c all_coins ->
  c_networks c <> [] /\ NoDup (List.map fst (c_networks c)) /\
  forall n w a, In (n, (w, a)) (c_networks c) -> n <> [] /\ 1 <= w <= 255 /\ 0 <= a <= 65535.
Proof.
  intros c H. apply coin_table in H. unfold coin_table_ok in H. apply andb_true_iff in H. destruct H as [H H3].
  apply andb_true_iff in H. destruct H as [H1 H2]. split; [destruct (c_networks c); [discriminate|discriminate]|].
  split; [apply distinct_ok, H3|]. intros n w a I. rewrite forallb_forall in H2. specialize (H2 _ I). cbv beta iota in H2.
  rewrite !andb_true_iff in H2. destruct H2 as ((((A & B) & C) & D) & E). split; [intros ->; discriminate|lia].
Qed.
Theorem C39_coin_ok : forall c, In c all_coins -> coin_ok c.
Proof. intros c H n w a I. destruct (C39_table c H) as (_ & _ & T). destruct (T n w a I) as (_ & Hw & Ha). lia. Qed.
Lemma dict_get_nodup {A} n (v : A) d : NoDup (List.map fst d) -> In (n, v) d -> dict_get n d = Some v.
Proof.
  induction d as [|[k x] d IH]; [contradiction|]. cbn [List.map fst dict_get]. intros ND [E|I].
  - injection E as -> ->. rewrite (proj2 (str_eqb_spec n n) eq_refl). reflexivity.
  - apply NoDup_cons_iff in ND. destruct ND as [NI ND]. destruct (str_eqb n k) eqn:E; [|apply IH; assumption].
    apply str_eqb_spec in E. subst k. exfalso. apply NI. apply (in_map fst) in I. exact I.
Qed.
(** Every entry of the table can be used, from an instance for any network of
    the coin: the setting of all other theorems. *)
Theorem C39_sessions : forall c n w a n0, In c all_coins -> In (n, (w, a)) (c_networks c) -> In n0 (List.map fst (c_networks c)) ->
  exists self, bip38_init (CoinClass c) n0 = Ok self /\ session self (Some n) w a /\ (n0 = n -> session self None w a).
Proof.
  intros c n w a n0 H I I0. destruct (C39_table c H) as (_ & ND & T). destruct (T n w a I) as (NE & _).
  pose proof (dict_get_nodup n (w, a) _ ND I) as D.
  assert (E : exists self, bip38_init (CoinClass c) n0 = Ok self).
  { unfold bip38_init. rewrite (proj2 (str_in_spec _ _) I0). eexists. reflexivity. }
  destruct E as [self E]. exists self. split; [exact E|]. split.
  - exists c, n0. split; [apply C39_coin_ok, H|]. split; [exact E|]. destruct n; [congruence|exact D].
  - intros ->. exists c, n. split; [apply C39_coin_ok, H|]. split; [exact E|exact D].
Qed.
(** Lengths of WIFs: 51 and 52 characters for prefixes from 0x80, one less
    possible below. *)
Theorem C39_wif_length : forall P c n w a k compressed s, prims_ok P -> In c all_coins -> In (n, (w, a)) (c_networks c) ->
  List.length k = 32%nat -> wif_text P w compressed k s ->
  (if compressed then 51 else 50) <= zlen s <= (if compressed then 52 else 51) /\
  (128 <= w -> zlen s = if compressed then 52 else 51).
Proof.
  intros P c n w a k comp s HP H I Lk T. destruct (C39_table c H) as (_ & _ & TT). destruct (TT n w a I) as (_ & Hw & _).
  destruct T as (p & M & T). rewrite (minimal_unique _ _ M) in T.
  assert (Ep : pre w = [z2b w] /\ b2z (z2b w) = w).
  { assert (B : b2z (z2b w) = w) by (rewrite b2z_z2b; apply Z.mod_small; lia). split; [|exact B].
    unfold pre. rewrite <- B at 1. rewrite one_byte. reflexivity. }
  destruct Ep as [Ep EB]. rewrite Ep in T. unfold base58check_text in T. set (ck := checksum4 P _) in T.
  assert (Lc : List.length ck = 4%nat) by apply checksum4_length, HP. clearbody ck.
  assert (Hl : zlen (k ++ (if comp then [x01] else []) ++ ck) = if comp then 37 else 36).
  { unfold zlen. rewrite !app_length, Lk, Lc. destruct comp; reflexivity. }
  assert (T' : base58_text (z2b w :: k ++ (if comp then [x01] else []) ++ ck) s).
  { unfold base58_text. rewrite <- !app_assoc in T. exact T. }
  destruct (shape_wif_small (z2b w) _ s ltac:(lia) T') as [S1 S2]. split.
  - destruct comp; auto.
  - intros W. destruct (shape_wif (z2b w) _ s ltac:(lia) T') as [S3 S4]. destruct comp; auto.
Qed.
(** Address prefixes are one or two bytes. *)
Theorem C39_address_prefix_bytes : forall c n w a l, In c all_coins -> In (n, (w, a)) (c_networks c) ->
  minimal_bytes a l -> (1 <= List.length l <= 2)%nat.
Proof.
  intros c n w a l H I [V M]. destruct (C39_table c H) as (_ & _ & TT). destruct (TT n w a I) as (_ & _ & Ha).
  split.
  - destruct l; [discriminate M|cbn; lia].
  - destruct (le_lt_dec (List.length l) 2) as [|G]; [assumption|exfalso].
    destruct l as [|b r]; [cbn in G; lia|]. 
    assert (N : b <> x00).
    { intros ->. assert (Lr : r <> []) by (destruct r; [cbn in G; lia|discriminate]).
      pose proof (shortest_length_lt (x00 :: r)) as X. cbn [first_byte List.length] in X. rewrite M in X. cbn [List.length] in X.
      destruct r; [congruence|]. cbn [List.length] in X. specialize (X ltac:(lia) eq_refl). lia. }
    assert (B : 1 <= byte_value b). { unfold byte_value. destruct b; try (exfalso; apply N; reflexivity); cbn; lia. }
    cbn [List.length] in G. unfold be_value in V. cbn [List.map digits_value] in V. rewrite map_length in V.
    assert (0 <= digits_value 256 (List.map byte_value r)) by (change (0 <= be_value r); rewrite be_value_be2z; pose proof (be2z_bound r); lia).
    assert (256 ^ 2 <= 256 ^ Z.of_nat (List.length r)) by (apply Z.pow_le_mono_r; lia). change (256 ^ 2) with 65536 in *. nia.
Qed.
Example C39_example : In coin_Bitcoin all_coins /\ In coin_Ripple all_coins /\ In (str "regtest", (0xef, 0x6f)) (c_networks coin_Bitcoin).
Proof. split; [|split]; cbn; tauto. Qed.

(** ** C40: the coin's own alphabet *)
(** Two coins with the same network table, whatever their alphabets, are
    indistinguishable (by C31). *)
Theorem C40_alphabet_ignored : forall P c c' n0 self self' network w a, prims_ok P -> coin_ok c ->
  c_networks c' = c_networks c ->
  bip38_init (CoinClass c) n0 = Ok self -> bip38_init (CoinClass c') n0 = Ok self' ->
  dict_get (chosen network n0) (c_networks c) = Some (w, a) ->
  (forall wif pw, encrypt P self wif pw network = encrypt P self' wif pw network) /\
  (forall random code t seed, create_new_encrypted_wif P random self code t seed network = create_new_encrypted_wif P random self' code t seed network) /\
  (forall pw code detail, confirm_code P self pw code network detail = confirm_code P self' pw code network detail) /\
  (forall s pw detail, decrypt P self s pw network detail = decrypt P self' s pw network detail).
Proof.
  intros P c c' n0 self self' network w a HP HC EN I I' D. apply (C31_only_prefixes P self network self' network w a HP).
  - exists c, n0. auto.
  - exists c', n0. split; [intros n w' a'; rewrite EN; apply HC|]. split; [exact I'|]. rewrite EN. exact D.
Qed.
Definition ripple_alphabet : pystr := str "rpshnaf39wBUDNEGHJKLM4PQRST7VWXYZ2bcdeCg65jkm8oFqi1tuvAxyz".
Lemma strip_zeros_le (l : bytes) : (List.length (strip_zeros l) <= List.length l)%nat.
Proof. induction l as [|b l IH]; [reflexivity|]. cbn [strip_zeros]. destruct (Byte.eqb b x00); cbn [List.length]; lia. Qed.
Lemma base_text_zero A r s : base_text A (x00 :: r) s -> nth 0 s 0%N = letter A 0.
Proof.
  intros (k & body & ds & E & SB & _ & _ & ->). destruct k as [|k]; [|reflexivity]. cbn [repeat app] in E. subst body.
  exfalso. apply (f_equal (@List.length byte)) in SB. change (strip_zeros (x00 :: r)) with (strip_zeros r) in SB.
  pose proof (strip_zeros_le r). cbn [List.length] in SB. lia.
Qed.
Lemma address_first A P c x y s : address_text P A 0 c x y s -> nth 0 s 0%N = letter A 0.
Proof.
  intros (p & ser & M & _ & T). rewrite (minimal_unique _ _ M) in T. change (pre 0) with [x00] in T. unfold base58check_text in T.
  exact (base_text_zero _ _ _ T).
Qed.
(** For Ripple, decrypt and confirm_code return addresses in Bitcoin's alphabet,
    which are never the Ripple addresses of the key. *)
Theorem C40_ripple_decrypt : forall P n0 self network s pw d, prims_ok P -> bip38_init (CoinClass coin_Ripple) n0 = Ok self ->
  decrypt P self s pw network true = Ok (DDetail d) ->
  exists e x y k c, scalar k e /\ d_private_key d = hex k /\ public_point e x y /\
    address_text P bitcoin_alphabet 0 c x y (d_address d) /\
    forall s', address_text P ripple_alphabet 0 c x y s' -> s' <> d_address d.
Proof.
  intros P n0 self network s pw d HP I E.
  assert (HC : constructed self). { exists coin_Ripple, n0. split; [apply C39_coin_ok; cbn; tauto|exact I]. }
  assert (HS : session self network 0x80 0).
  { destruct (C32_constructor coin_Ripple n0 self) as [X _]. destruct (X I) as (_ & E1 & E2 & E3 & _). exists coin_Ripple, n0.
    split; [apply C39_coin_ok; cbn; tauto|]. split; [exact I|].
    destruct (dict_get (chosen network n0) (c_networks coin_Ripple)) as [[w a]|] eqn:D.
    - apply dict_get_in in D. cbn in D. destruct D as [D|[]]. injection D as _ <- <-. reflexivity.
    - exfalso. apply dict_get_none in D. destruct (C31_unknown_network P _ _ _ network I D) as (_ & _ & _ & X4). rewrite X4 in E. discriminate. }
  destruct (C16_decrypt_sound P self network _ _ s pw d HP HS E) as (raw & k & c & _ & _ & (_ & Ek & _ & _ & KA & _) & _).
  destruct KA as (e & x & y & SC & PP & AT). exists e, x, y, k, c. split; [exact SC|]. split; [exact Ek|]. split; [exact PP|]. split; [exact AT|].
  intros s' AT' ->. apply address_first in AT. apply address_first in AT'. rewrite AT in AT'. discriminate.
Qed.
Theorem C40_ripple_create : forall P n0 self network random code t arg seed r, prims_ok P -> bip38_init (CoinClass coin_Ripple) n0 = Ok self ->
  argument_bytes random arg seed -> create_new_encrypted_wif P random self code t arg network = Ok r ->
  exists x y c, on_curve (Aff x y) /\ address_text P bitcoin_alphabet 0 c x y (n_address r) /\
    forall s', address_text P ripple_alphabet 0 c x y s' -> s' <> n_address r.
Proof.
  intros P n0 self network random code t arg seed r HP I A E.
  assert (HS : session self network 0x80 0).
  { destruct (C32_constructor coin_Ripple n0 self) as [X _]. destruct (X I) as (_ & E1 & E2 & E3 & _). exists coin_Ripple, n0.
    split; [apply C39_coin_ok; cbn; tauto|]. split; [exact I|].
    destruct (dict_get (chosen network n0) (c_networks coin_Ripple)) as [[w a]|] eqn:D.
    - apply dict_get_in in D. cbn in D. destruct D as [D|[]]. injection D as _ <- <-. reflexivity.
    - exfalso. apply dict_get_none in D. destruct (C31_unknown_network P _ _ _ network I D) as (_ & X4 & _). rewrite X4 in E. discriminate. }
  destruct (C28_output P random self network _ _ code t arg seed r HP HS A E)
    as (lot & c & ent & pp & px & py & e & x & y & ser & tail & tail' & _ & _ & OC & _ & SC & MU & _ & _ & _ & _ & _ & AT & _).
  exists x, y, c. split; [|split; [exact AT|]].
  - destruct SC as [_ R].
    pose proof (proj1 (mulk_multiple {| pk_x := px; pk_y := py |} e x y OC R) MU) as EM.
    destruct (mulk_ok {| pk_x := px; pk_y := py |} e OC R) as (_ & OK & _). rewrite EM in OK. exact OK.
  - intros s' AT' ->. apply address_first in AT. apply address_first in AT'. rewrite AT in AT'. discriminate.
Qed.
(** The alphabet is stored, though. *)
Example C40_example : exists self, bip38_init (CoinClass coin_Ripple) (str "mainnet") = Ok self /\ s_alphabet self = ripple_alphabet /\
  ripple_alphabet <> bitcoin_alphabet /\ alphabet_ok ripple_alphabet /\
  c_networks {| c_name := str "Ripple"; c_networks := c_networks coin_Ripple; c_alphabet := None |} = c_networks coin_Ripple.
Proof.
  eexists. split; [reflexivity|]. split; [reflexivity|]. split; [discriminate|]. split; [|reflexivity].
  apply alphabet_okb. vm_compute. reflexivity.
Qed.
(** A Ripple instance that decrypts (by C40 it does what Bitcoin's does). *)
Example C40_decrypt_example : exists self e d, bip38_init (CoinClass coin_Ripple) (str "mainnet") = Ok self /\
  decrypt toy self e (str "TestingOneTwoThree") None true = Ok (DDetail d).
Proof.
  destruct C16_example as (e & d & E & _). eexists. exists e, d. split; [reflexivity|]. rewrite <- E.
  apply (C31_only_prefixes toy _ None btc None 0x80 0 toy_ok); [|exact btc_session].
  exists coin_Ripple, (str "mainnet"). split; [apply C39_coin_ok; cbn; tauto|]. split; reflexivity.
Qed.
