(** * PropErrors: C41, the exceptions that can escape from the five methods of
    BIP38, and C44, the text of the library's exceptions. *)
From Coq Require Import Lia ZifyBool ZifyNat ZifyN.
From Verif Require Import ErrorFacts Py Prims Const Spec PyFacts Utils UtilsFacts Base58 Base58Facts Exceptions
  Curve SpecCurve Secp256k1 SecpFacts Cryptocurrencies Wif Bip38 SpecBip38 SpecRecords SpecSession
  CodecFacts CodecFacts2 Bip38Facts Bip38Facts2 Sessions RecordFacts ECFacts Toy PropEncrypt PropIntermediate PropCreate PropShape PropEC SpecReads ReadFacts.

(** ** C41 *)
(** An exception class: one of bip38.exceptions, or a built-in one. *)
Inductive exn_class := Library (c : lib_class) | Python (c : py_class).
Definition class_of (e : exn) : exn_class := match e with Lib c _ => Library c | Builtin c => Python c end.
(** If the call raises, then an exception of one of these classes. *)
Definition raises_only {A} (r : res A) (l : list exn_class) : Prop := forall e, r = Raise e -> In (class_of e) l.
Definition raises {A} (r : res A) (c : exn_class) : Prop := exists e, r = Raise e /\ class_of e = c.
(** An owner_salt or seed argument of one of the documented types (or any
    false value): str, bytes or None. *)
Definition documented (arg : pyarg) : Prop := arg <> POther true.

Definition intermediate_code_exceptions : list exn_class :=
  [Library CError; Library CSecp256k1Error; Python ValueError; Python UnicodeEncodeError].
Definition encrypt_exceptions : list exn_class :=
  [Library CNetworkError; Library CWIFError; Library CSecp256k1Error; Python ValueError; Python UnicodeEncodeError].
Definition create_exceptions : list exn_class :=
  [Library CError; Library CNetworkError; Library CPassphraseError; Library CWIFError; Library CSecp256k1Error; Python ValueError].
Definition confirm_exceptions : list exn_class :=
  [Library CError; Library CNetworkError; Library CPassphraseError; Python UnicodeEncodeError].
Definition decrypt_exceptions : list exn_class :=
  [Library CError; Library CNetworkError; Library CPassphraseError; Library CWIFError; Library CSecp256k1Error; Python ValueError; Python UnicodeEncodeError].

Lemma entropy_err random arg e : documented arg -> entropy_arg random arg = Raise e ->
  e = Builtin ValueError /\ exists s, arg = PStr s /\ s <> [] /\ fromhex s = None.
Proof.
  intros D. unfold entropy_arg, documented in *. destruct arg as [|b|s|t]; cbn [truthy]; try discriminate.
  - destruct b; discriminate.
  - destruct s as [|c s]; [discriminate|]. unfold get_bytes. cbn [truthy negb]. destruct (fromhex (c :: s)) as [b|] eqn:F; [discriminate|].
    intros H. split; [congruence|]. exists (c :: s). split; [reflexivity|]. split; [discriminate|exact F].
  - destruct t; [congruence|discriminate].
Qed.
Ltac member := match goal with H : Raise _ = Raise ?e |- In (class_of ?e) _ => inversion H; subst e; cbn; tauto end.
Lemma utf8_cases s : (exists b, utf8_encode s = Ok b) \/ utf8_encode s = Raise (Builtin UnicodeEncodeError).
Proof. unfold utf8_encode. destruct (utf8_opt s); eauto. Qed.

Theorem C41_intermediate_code : forall P random pw lot sequence arg, documented arg ->
  raises_only (intermediate_code P random pw lot sequence arg) intermediate_code_exceptions.
Proof.
  intros P random pw lot sequence arg D e H.
  destruct (entropy_arg random arg) as [salt|e'] eqn:A.
  - destruct (intermediate_cases P random arg salt pw lot sequence A) as [(l & ent & EQ & _)|(m & EQ)]; rewrite EQ in H; [|member].
    unfold intermediate_result in H. destruct (utf8_cases (h_nfc P pw)) as [[pwb U]|U]; rewrite U in H; [|member].
    cbv zeta in H. destruct (key_okb _); [discriminate|member].
  - destruct (entropy_err _ _ _ D A) as (-> & _). unfold intermediate_code in H. fold (entropy_arg random arg) in H. rewrite A in H. cbn [bind] in H. member.
Qed.
Lemma decode_wif_class s w e : 0 <= w -> decode_wif s w = Raise e -> e = Builtin UnicodeEncodeError /\ ~ is_ascii s \/ e = Lib CWIFError "Invalid Wallet Import Format (WIF)".
Proof.
  intros Hw H. destruct (is_ascii_dec s) as [I|I].
  - destruct (decode_ascii58 s I) as [raw R]. right. apply (decode_wif_err _ _ _ _ Hw R H).
  - left. rewrite (decode_wif_non_ascii s w I) in H. split; [congruence|exact I].
Qed.
Theorem C41_encrypt : forall P self network wif pw, prims_ok P -> constructed self ->
  raises_only (encrypt P self wif pw network) encrypt_exceptions.
Proof.
  intros P self network wif pw HP HC e H. destruct (constructed_cases self network HC) as [(n & w & a & N)|N].
  - rewrite (encrypt_eq P HP _ _ _ _ _ _ _ N) in H. destruct (decode_wif wif w) as [[[k t] ck]|e'] eqn:D.
    + unfold encrypt_result in H. destruct (key_okb k); [|member].
      destruct (utf8_cases (h_nfc P pw)) as [[pwb U]|U]; rewrite U in H; [|member]. cbv zeta in H. destruct (_ || _); [member|discriminate].
    + destruct (decode_wif_class _ _ _ (ns_w _ _ _ _ _ N) D) as [[-> _]| ->]; member.
  - rewrite (encrypt_no_net _ _ _ _ _ _ N) in H. member.
Qed.
Lemma enc_block_class P k m e : enc_block P k m = Raise e -> e = Builtin ValueError.
Proof. unfold enc_block. destruct (Nat.eqb _ _); congruence. Qed.
Theorem C41_create_new_encrypted_wif : forall P random self network code t arg, prims_ok P -> constructed self -> documented arg ->
  raises_only (create_new_encrypted_wif P random self code t arg network) create_exceptions.
Proof.
  intros P random self network code t arg HP HC D e H. destruct (constructed_cases self network HC) as [(n & w & a & N)|N].
  - rewrite (create_eq P HP _ _ _ _ _ _ _ _ _ N) in H. destruct (entropy_arg random arg) as [seed|e'] eqn:A.
    + destruct (check_decode P code base58_alphabet) as [d|e']; [|member].
      unfold create_result in H. destruct (Nat.eqb _ _); [|member]. destruct (type_of t) as [c|]; [|member].
      destruct (magic_of _) as [lot|]; [|member]. unfold create_core in H. cbv zeta in H. destruct (key_okb _); [|member].
      destruct (PublicKey_from_bytes (from 16 d)) as [ppk|e'] eqn:B; cbn [bind] in H.
      2:{ apply PublicKey_from_bytes_err in B. subst e'. member. }
      repeat match type of H with bind ?x _ = _ => let E := fresh in destruct x eqn:E; cbn [bind] in H; [|apply enc_block_class in E; subst; member] end.
      discriminate.
    + destruct (entropy_err _ _ _ D A) as (-> & _). member.
  - rewrite (create_no_net _ _ _ _ _ _ _ _ N) in H. member.
Qed.
Theorem C41_confirm_code : forall P self network code pw detail, prims_ok P -> constructed self ->
  raises_only (confirm_code P self pw code network detail) confirm_exceptions.
Proof.
  intros P self network code pw detail HP HC e H. destruct (constructed_cases self network HC) as [(n & w & a & N)|N].
  - pose proof (confirm_bad P self network n w a code pw detail N) as B.
    destruct (check_decode P code base58_alphabet) as [d|e'] eqn:D; [|rewrite B in H; member].
    destruct (Nat.eq_dec (List.length d) 51) as [L|L]; [|rewrite (B L) in H; member].
    destruct (cut51 d L) as (p & f & ah & ent & b0 & q1 & q2 & -> & Lp & La & Le & L1 & L2).
    rewrite (confirm_eq P HP _ _ _ _ _ _ _ _ _ _ _ _ _ _ _ N D) in H by assumption.
    destruct (bytes_eqb _ p); [|member]. unfold confirm_core in H.
    destruct (utf8_cases (h_nfc P pw)) as [[pwb U]|U]; rewrite U in H; [|member]. cbv zeta in H. destruct (key_okb _); [|member].
    destruct (PublicKey_from_bytes _); [|member]. destruct (bytes_eqb _ _); [discriminate|member].
  - rewrite (confirm_no_net _ _ _ _ _ _ _ N) in H. member.
Qed.
Theorem C41_decrypt : forall P self network s pw detail, prims_ok P -> constructed self ->
  raises_only (decrypt P self s pw network detail) decrypt_exceptions.
Proof.
  intros P self network s pw detail HP HC e H. destruct (constructed_cases self network HC) as [(n & w & a & N)|N].
  - destruct (is_ascii_dec s) as [I|I]; [|rewrite (decrypt_non_ascii P _ _ _ _ _ _ _ _ N I) in H; member].
    destruct (decode_ascii58 s I) as [d D]. destruct (Nat.eq_dec (List.length d) 43) as [L|L].
    2:{ rewrite (decrypt_bad_length P _ _ _ _ _ _ _ _ _ N D L) in H. member. }
    destruct (cut43 d L) as (p & f & ah & e1 & e2 & ck & -> & Lp & La & L1 & L2 & Lc).
    rewrite (decrypt_eq P HP _ _ _ _ _ _ _ _ _ _ _ _ _ _ N D) in H by assumption.
    destruct (bytes_eqb p [x01; x42]); [|destruct (bytes_eqb p [x01; x43]); [|member]].
    + unfold decrypt_no_ec_result in H. destruct (_ || _); [|member].
      destruct (utf8_cases (h_nfc P pw)) as [[pwb U]|U]; rewrite U in H; [|member]. cbv zeta in H.
      destruct (_ || _); [member|]. destruct (zero_first _); [member|]. destruct (bytes_eqb _ _); [discriminate|member].
    + unfold decrypt_ec_result in H.
      destruct (utf8_cases (h_nfc P pw)) as [[pwb U]|U]; rewrite U in H; [|member]. cbv zeta in H.
      destruct (key_okb _); [|member]. destruct (_ <=? _)%nat; [|member]. destruct (key_okb _); [|member].
      destruct (zero_first _); [member|]. destruct (bytes_eqb _ _); [discriminate|member].
  - rewrite (decrypt_no_net _ _ _ _ _ _ _ N) in H. member.
Qed.
(** For keys in the format without EC multiplication, decrypt raises no ValueError. *)
Theorem C41_decrypt_value_error_ec_only : forall P self network w a s raw pw detail, prims_ok P -> session self network w a ->
  base58_reads s raw -> decrypt P self s pw network detail = Raise (Builtin ValueError) ->
  firstn 2 raw = [x01; x43].
Proof.
  intros P self network w a s d pw detail HP HS D H. to_code. destruct (session_net_sel _ _ _ _ HS) as (n & N).
  destruct (Nat.eq_dec (List.length d) 43) as [L|L].
  2:{ rewrite (decrypt_bad_length P _ _ _ _ _ _ _ _ _ N D L) in H. discriminate. }
  destruct (cut43 d L) as (p & f & ah & e1 & e2 & ck & -> & Lp & La & L1 & L2 & Lc).
  rewrite (decrypt_eq P HP _ _ _ _ _ _ _ _ _ _ _ _ _ _ N D) in H by assumption.
  change (firstn 2) with (@upto byte 2). rewrite upto_app by exact Lp.
  destruct (bytes_eqb p [x01; x42]); [exfalso|destruct (bytes_eqb p [x01; x43]) eqn:E; [apply bytes_eqb_spec, E|discriminate]].
  unfold decrypt_no_ec_result in H. destruct (_ || _); [|discriminate].
  destruct (utf8_cases (h_nfc P pw)) as [[pwb U]|U]; rewrite U in H; [|discriminate]. cbv zeta in H.
  destruct (_ || _); [discriminate|]. destruct (zero_first _); [discriminate|]. destruct (bytes_eqb _ _); discriminate.
Qed.
(** Exactly when: an EC-multiplied record makes decrypt fail with ValueError iff
    the passphrase is encodable, its factor is a valid private key, and the
    deciphered second block, unmasked, starts with nine zero bytes (so that the
    integer_to_bytes pattern leaves fewer than eight bytes of the first block). *)
Lemma short_iff l : List.length l = 16%nat -> (List.length (shortest l) < 8)%nat <-> firstn 9 l = repeat x00 9.
Proof.
  intros L. destruct (strip_zeros_spec l) as [k E]. unfold shortest.
  destruct (strip_zeros l) as [|b r] eqn:S.
  - rewrite app_nil_r in E. split; [intros _|cbn; lia]. subst l. rewrite repeat_length in L. subst k. reflexivity.
  - pose proof (strip_zeros_first _ _ _ S) as Hb. assert (Lk : (k + List.length (b :: r) = 16)%nat) by (rewrite E, app_length, repeat_length in L; exact L).
    split.
    + intros H. rewrite E. do 9 (destruct k as [|k]; [cbn [List.length] in *; lia|]). reflexivity.
    + intros H. rewrite E in H. cbn [List.length] in *. destruct (Nat.le_gt_cases 9 k); [lia|]. exfalso.
      apply (f_equal (fun l => nth k l x00)) in H.
      assert (N : nth k (firstn 9 (repeat x00 k ++ b :: r)) x00 = b).
      { clear -H0. do 9 (destruct k as [|k]; [reflexivity|]). lia. }
      rewrite N in H. apply Hb. rewrite H. clear -H0. do 9 (destruct k as [|k]; [reflexivity|]). lia.
Qed.
Theorem C41_decrypt_value_error_iff : forall P self network w a f lot c ah ent half e2 ck s pw detail, prims_ok P -> session self network w a ->
  List.length ah = 4%nat -> List.length ent = 8%nat -> List.length half = 8%nat -> List.length e2 = 16%nat -> List.length ck = 4%nat ->
  flag_meaning f lot c -> base58_reads s ([x01; x43] ++ [f] ++ ah ++ ent ++ half ++ e2 ++ ck) ->
  (decrypt P self s pw network detail = Raise (Builtin ValueError) <->
   exists pwb S, passphrase_bytes P pw pwb /\ seed_mask P lot pwb ent ah S /\
     firstn 9 (xor (h_aes_dec P (slice 32 64 S) e2) (slice 16 32 S)) = repeat x00 9).
Proof.
  intros P self network w a f lot c ah ent half e2 ck s pw detail HP HS La Le Lh L2 Lc M D. to_code. destruct (session_net_sel _ _ _ _ HS) as (n & N).
  destruct (flag_meaning_eq _ _ _ M) as [M1 M2].
  assert (D' : decode s base58_alphabet = Ok ([x01; x43] ++ [f] ++ ah ++ (ent ++ half) ++ e2 ++ ck)) by (rewrite <- (app_assoc ent); exact D).
  rewrite (decrypt_eq P HP _ _ _ _ _ _ _ _ _ _ _ _ pw detail N D') by (trivial; rewrite app_length; lia).
  replace (bytes_eqb [x01; x43] [x01; x42]) with false by reflexivity. replace (bytes_eqb [x01; x43] [x01; x43]) with true by reflexivity.
  rewrite upto_app, from_app by exact Le. unfold decrypt_ec_result. rewrite M1.
  destruct (utf8_cases (h_nfc P pw)) as [[pwb U]|U]; rewrite U.
  2:{ split; [discriminate|]. intros (pwb & _ & B & _). unfold passphrase_bytes in B. congruence. }
  cbv zeta. destruct (key_okb (pass_factor P lot pwb ent)) eqn:K.
  2:{ split; [discriminate|]. intros (pwb' & S & B & SM & _). unfold passphrase_bytes in B. assert (pwb' = pwb) by congruence. subst pwb'.
      apply seed_mask_iff in SM. destruct SM as [SM _]. congruence. }
  set (S := kdf2 P (ser true (pubof (be2z (pass_factor P lot pwb ent)))) ah ent).
  assert (SM : seed_mask P lot pwb ent ah S) by (apply seed_mask_iff; split; [exact K|reflexivity]).
  assert (U' : forall pwb' S', passphrase_bytes P pw pwb' -> seed_mask P lot pwb' ent ah S' -> S' = S).
  { intros pwb' S' B SM'. unfold passphrase_bytes in B. assert (pwb' = pwb) by congruence. subst pwb'.
    apply seed_mask_iff in SM'. destruct SM' as [_ ->]. reflexivity. }
  assert (LS : List.length S = 64%nat) by apply (kdf2_length P HP).
  assert (LK : List.length (from 32 S) = 32%nat) by (rewrite from_length; lia).
  assert (LD : List.length (xor (h_aes_dec P (from 32 S) e2) (slice 16 32 S)) = 16%nat).
  { rewrite xor_length; rewrite (aes_dec_len P HP) by assumption; [reflexivity|]. rewrite slice_length; lia. }
  assert (SL : slice 32 64 S = from 32 S) by (unfold slice, from; apply firstn_all2; rewrite skipn_length; lia).
  unfold ec_tail. destruct (Nat.leb_spec 8 (List.length (shortest (xor (h_aes_dec P (from 32 S) e2) (slice 16 32 S))))) as [G|G].
  - split.
    + destruct (key_okb (sha256d P _)); [|discriminate]. destruct (zero_first _); [discriminate|]. match goal with |- context [bytes_eqb ?u ?v] => destruct (bytes_eqb u v) end; discriminate.
    + intros (pwb' & S' & B & SM' & Z). rewrite (U' _ _ B SM'), SL in Z. apply short_iff in Z; [lia|exact LD].
  - split; [|reflexivity]. intros _. exists pwb, S. split; [exact U|]. split; [exact SM|]. rewrite SL. apply short_iff; assumption.
Qed.

(** Every class of every list is reached, already with the toy functions and the
    object BIP38(Bitcoin, "mainnet"). *)
Lemma btc_constructed : constructed btc.
Proof. apply (session_constructed _ _ _ _ btc_session). Qed.
Lemma no_network : ~ In (chosen (Some (str "moon")) (str "mainnet")) (List.map fst (c_networks coin_Bitcoin)).
Proof. intros H. cbn in H. decompose [or] H; try contradiction; discriminate. Qed.
Lemma moon : select_network btc (Some (str "moon")) = Raise (Lib CNetworkError "Wrong network type, (expected: 'mainnet', 'testnet', 'regtest' | got: '<class 'str'>')").
Proof. vm_compute; reflexivity. Qed.
Definition lone : pystr := [0xD800%N].
Lemma lone_bad : utf8_encode (h_nfc toy lone) = Raise (Builtin UnicodeEncodeError).
Proof. reflexivity. Qed.
Lemma not_ascii_e9 : ~ is_ascii [0xE9%N].
Proof. intros A. inversion A as [|x l H]. lia. Qed.
Ltac is_class := eexists; split; reflexivity.
Ltac goes e := exists e; split; [|reflexivity].
Theorem C41_intermediate_code_reached : forall c, In c intermediate_code_exceptions ->
  exists P random pw lot sequence arg, prims_ok P /\ documented arg /\ raises (intermediate_code P random pw lot sequence arg) c.
Proof.
  assert (HP0 : prims_ok toy0).
  { split; [reflexivity|discriminate|intros; apply repeat_length|exact (aes_enc_len toy toy_ok)|exact (aes_dec_len toy toy_ok)|exact (aes_dec_enc toy toy_ok)]. }
  assert (ND : documented PNone) by discriminate.
  intros c H. cbn in H. destruct H as [<-|[<-|[<-|[<-|[]]]]].
  - exists toy, [], [], None, None, PNone. split; [exact toy_ok|]. split; [exact ND|]. is_class.
  - exists toy0, (repeat x01 8), (str "Satoshi"), None, None, PNone. split; [exact HP0|]. split; [exact ND|].
    eexists; split; [exact C21_zero_factor_example|reflexivity].
  - exists toy, [], [], None, None, (PStr (str "xy")). split; [exact toy_ok|]. split; [discriminate|]. is_class.
  - exists toy, (repeat x01 8), lone, None, None, PNone. split; [exact toy_ok|]. split; [exact ND|].
    goes (Builtin UnicodeEncodeError). rewrite (intermediate_plain_eq toy _ _ (repeat x01 8)); [|reflexivity|left; auto].
    unfold intermediate_result. rewrite lone_bad. reflexivity.
Qed.
Theorem C41_encrypt_reached : forall c, In c encrypt_exceptions ->
  exists P self network wif pw, prims_ok P /\ constructed self /\ raises (encrypt P self wif pw network) c.
Proof.
  intros c H. exists toy, btc. destruct (session_net_sel _ _ _ _ btc_session) as (n & N). cbn in H. destruct H as [<-|[<-|[<-|[<-|[<-|[]]]]]].
  - exists (Some (str "moon")), [], []. split; [exact toy_ok|]. split; [exact btc_constructed|]. eexists; split; [apply encrypt_no_net, moon|reflexivity].
  - exists None, [], []. split; [exact toy_ok|]. split; [exact btc_constructed|]. goes (Lib CWIFError "Invalid Wallet Import Format (WIF)").
    rewrite (encrypt_eq toy toy_ok _ _ _ _ _ _ _ N). reflexivity.
  - exists None, (wif_of toy 0x80 false (repeat x00 32)), []. split; [exact toy_ok|]. split; [exact btc_constructed|]. goes (Lib CSecp256k1Error "Invalid private key bytes").
    rewrite (encrypt_eq toy toy_ok _ _ _ _ _ _ _ N). rewrite (decode_wif_of toy _ _ _ toy_ok) by (lia || reflexivity).
    unfold encrypt_result. replace (key_okb (repeat x00 32)) with false by (vm_compute; reflexivity). reflexivity.
  - destruct C13_example as (s & _ & E). exists None, s, (str "Satoshi"). split; [exact toy_ok|]. split; [exact btc_constructed|]. eexists; split; [exact E|reflexivity].
  - exists None, [0xE9%N], []. split; [exact toy_ok|]. split; [exact btc_constructed|]. goes (Builtin UnicodeEncodeError).
    rewrite (encrypt_eq toy toy_ok _ _ _ _ _ _ _ N). rewrite (decode_wif_non_ascii _ _ not_ascii_e9). reflexivity.
Qed.
Lemma code49 d : check_decode toy (b58c toy d) base58_alphabet = Ok d.
Proof. apply check_decode_b58c, toy_ok. Qed.
Theorem C41_create_reached : forall c, In c create_exceptions ->
  exists P random self network code t arg, prims_ok P /\ constructed self /\ documented arg /\
    raises (create_new_encrypted_wif P random self code t arg network) c.
Proof.
  intros c H. destruct (session_net_sel _ _ _ _ btc_session) as (n & N).
  assert (ND : documented PNone) by discriminate.
  assert (G : forall t d, create_new_encrypted_wif toy (repeat x11 24) btc (b58c toy d) t PNone None = create_result toy 0 t (repeat x11 24) d).
  { intros t d. rewrite (create_eq toy toy_ok _ _ _ _ _ _ _ _ _ N). change (entropy_arg (repeat x11 24) PNone) with (Ok (repeat x11 24)). cbv beta iota.
    rewrite code49. reflexivity. }
  exists toy, (repeat x11 24), btc. cbn in H. destruct H as [<-|[<-|[<-|[<-|[<-|[<-|[]]]]]]].
  - exists None, (b58c toy (repeat x00 49)), (str "wif"), PNone. split; [exact toy_ok|]. split; [exact btc_constructed|]. split; [exact ND|].
    eexists; split; [rewrite G; reflexivity|reflexivity].
  - exists (Some (str "moon")), [], [], PNone. split; [exact toy_ok|]. split; [exact btc_constructed|]. split; [exact ND|].
    eexists; split; [apply create_no_net, moon|reflexivity].
  - exists None, (b58c toy []), (str "wif"), PNone. split; [exact toy_ok|]. split; [exact btc_constructed|]. split; [exact ND|].
    eexists; split; [rewrite G; reflexivity|reflexivity].
  - exists None, (b58c toy (repeat x00 49)), (str "wof"), PNone. split; [exact toy_ok|]. split; [exact btc_constructed|]. split; [exact ND|].
    eexists; split; [rewrite G; reflexivity|reflexivity].
  - exists None, (b58c toy (code_magic true ++ repeat x00 8 ++ repeat x07 33)), (str "wif"), PNone. split; [exact toy_ok|]. split; [exact btc_constructed|]. split; [exact ND|].
    eexists; split.
    + rewrite G. unfold create_result. replace (Nat.eqb _ 49) with true by reflexivity. replace (type_of _) with (Some false) by reflexivity.
      replace (magic_of _) with (Some true) by reflexivity. unfold create_core. cbv zeta.
      replace (key_okb _) with true by (vm_compute; reflexivity).
      replace (PublicKey_from_bytes _) with (Raise (Lib CSecp256k1Error "Invalid public key bytes") : res pubkey) by reflexivity. reflexivity.
    + reflexivity.
  - exists None, [], [], (PStr (str "xy")). split; [exact toy_ok|]. split; [exact btc_constructed|]. split; [discriminate|].
    goes (Builtin ValueError). rewrite (create_eq toy toy_ok _ _ _ _ _ _ _ _ _ N). reflexivity.
Qed.
Lemma shortest_16 l : List.length l = 16%nat -> (List.length (shortest l) <= 16)%nat.
Proof. intros L. pose proof (strip_zeros_length l). unfold shortest. destruct (strip_zeros l); [cbn; lia|lia]. Qed.
(** A confirmation code under which every passphrase is incorrect *)
Lemma toy_pf_ok f : lotb f = false -> forall pwb ent, key_okb (pass_factor toy (lotb f) pwb ent) = true.
Proof.
  intros F pwb ent. rewrite F. rewrite <- owner_factor_eq, toy_factor_plain. vm_compute. reflexivity.
Qed.
Theorem C41_confirm_reached : forall c, In c confirm_exceptions ->
  exists P self network code pw detail, prims_ok P /\ constructed self /\ raises (confirm_code P self pw code network detail) c.
Proof.
  intros c H. destruct (session_net_sel _ _ _ _ btc_session) as (n & N).
  assert (G : forall p f ah ent b0 q1 q2 pw, List.length p = 5%nat -> List.length ah = 4%nat -> List.length ent = 8%nat -> List.length q1 = 16%nat -> List.length q2 = 16%nat ->
    confirm_code toy btc pw (b58c toy (p ++ [f] ++ ah ++ ent ++ [b0] ++ q1 ++ q2)) None false = if bytes_eqb [x64; x3b; xf6; xa8; x9a] p then confirm_core toy 0 f ah ent b0 q1 q2 pw false
    else Raise (Lib CError (error_text "Invalid confirmation code prefix" (str "5") (bytes_repr p)))).
  { intros. apply (confirm_eq toy toy_ok btc None n 0x80 0); trivial. apply code49. }
  exists toy, btc. cbn in H. destruct H as [<-|[<-|[<-|[<-|[]]]]].
  - exists None, (b58c toy (repeat x00 5 ++ [x00] ++ repeat x00 4 ++ repeat x00 8 ++ [x00] ++ repeat x00 16 ++ repeat x00 16)), [], false.
    split; [exact toy_ok|]. split; [exact btc_constructed|]. eexists; split; [rewrite G by reflexivity; reflexivity|reflexivity].
  - exists (Some (str "moon")), [], [], false. split; [exact toy_ok|]. split; [exact btc_constructed|]. eexists; split; [apply confirm_no_net, moon|reflexivity].
  - exists None, (b58c toy ([x64; x3b; xf6; xa8; x9a] ++ [x00] ++ repeat x00 4 ++ repeat x00 8 ++ [xff] ++ repeat x00 16 ++ repeat x00 16)), [], false.
    split; [exact toy_ok|]. split; [exact btc_constructed|]. goes (Lib CPassphraseError "Incorrect passphrase"). rewrite G by reflexivity.
    replace (bytes_eqb [x64; x3b; xf6; xa8; x9a] [x64; x3b; xf6; xa8; x9a]) with true by reflexivity.
    unfold confirm_core. replace (utf8_encode (h_nfc toy [])) with (Ok [] : res bytes) by reflexivity. cbv beta iota zeta.
    rewrite toy_pf_ok by reflexivity. set (S := kdf2 toy _ _ _).
    assert (LS : List.length S = 64%nat) by apply (kdf2_length toy toy_ok). clearbody S.
    assert (HX : forall m q, List.length m = 16%nat -> List.length q = 16%nat -> List.length (xor (h_aes_dec toy (from 32 S) q) m) = 16%nat).
    { intros m q Lm Lq. assert (LK : List.length (from 32 S) = 32%nat) by (rewrite from_length; lia). rewrite xor_length; rewrite (aes_dec_len toy toy_ok) by assumption; congruence. }
    assert (X1 : List.length (upto 16 S) = 16%nat) by (rewrite upto_length; lia).
    assert (X2 : List.length (slice 16 32 S) = 16%nat) by (rewrite slice_length; lia).
    destruct (PublicKey_from_bytes (point_b_of toy S xff (repeat x00 16) (repeat x00 16))) as [B|e] eqn:E; [|reflexivity]. exfalso.
    unfold point_b_of in E. assert (X : exists b, byte_xor xff (low_bit (last64 S)) = b /\ (b = xff \/ b = xfe)).
    { eexists. split; [reflexivity|]. unfold low_bit. destruct (Z.odd _); [right|left]; reflexivity. }
    destruct X as (b & EX & Hb). rewrite EX in E. apply PublicKey_from_bytes_iff in E. destruct E as [_ E].
    destruct E as [E|[E|[E|E]]].
    + destruct E as (xs & _ & E). apply (f_equal first_byte) in E. cbn [app first_byte] in E. rewrite E in Hb. destruct (Z.even _); destruct Hb; discriminate.
    + destruct E as (xs & ys & _ & _ & E). apply (f_equal first_byte) in E. cbn [app first_byte] in E. rewrite E in Hb. destruct Hb; discriminate.
    + apply raw_xy_length in E. pose proof (shortest_16 _ (HX (upto 16 S) (repeat x00 16) X1 eq_refl)). pose proof (shortest_16 _ (HX (slice 16 32 S) (repeat x00 16) X2 eq_refl)).
      cbn [app List.length] in E. rewrite app_length in E. lia.
    + destruct E as (xs & ys & _ & _ & E). apply (f_equal first_byte) in E. cbn [app first_byte] in E. rewrite E in Hb. destruct (Z.even _); destruct Hb; discriminate.
  - exists None, (b58c toy ([x64; x3b; xf6; xa8; x9a] ++ [x00] ++ repeat x00 4 ++ repeat x00 8 ++ [xff] ++ repeat x00 16 ++ repeat x00 16)), lone, false.
    split; [exact toy_ok|]. split; [exact btc_constructed|]. goes (Builtin UnicodeEncodeError). rewrite G by reflexivity.
    replace (bytes_eqb [x64; x3b; xf6; xa8; x9a] [x64; x3b; xf6; xa8; x9a]) with true by reflexivity.
    unfold confirm_core. rewrite lone_bad. reflexivity.
Qed.
Theorem C41_decrypt_reached : forall c, In c decrypt_exceptions ->
  exists P self network s pw detail, prims_ok P /\ constructed self /\ raises (decrypt P self s pw network detail) c.
Proof.
  intros c H. destruct (session_net_sel _ _ _ _ btc_session) as (n & N).
  assert (G : forall p f ah e1 e2 pw, List.length p = 2%nat -> List.length ah = 4%nat -> List.length e1 = 16%nat -> List.length e2 = 16%nat ->
    decrypt toy btc (b58 (p ++ [f] ++ ah ++ e1 ++ e2 ++ repeat x00 4)) pw None false =
    if bytes_eqb p [x01; x42] then decrypt_no_ec_result toy 0x80 0 f ah e1 e2 pw false
    else if bytes_eqb p [x01; x43] then decrypt_ec_result toy 0x80 0 f ah (upto 8 e1) (from 8 e1) e2 pw false
    else Raise (Lib CError (error_text "Invalid prefix" (str "'0142', '0143'") (tohex p)))).
  { intros. apply (decrypt_eq toy toy_ok btc None n 0x80 0 _ p f ah e1 e2 (repeat x00 4)); trivial. apply decode_b58. }
  exists toy, btc. cbn in H. destruct H as [<-|[<-|[<-|[<-|[<-|[<-|[<-|[]]]]]]]].
  - exists None, (b58 (repeat x00 2 ++ [x00] ++ repeat x00 4 ++ repeat x00 16 ++ repeat x00 16 ++ repeat x00 4)), [], false.
    split; [exact toy_ok|]. split; [exact btc_constructed|]. goes (Lib CError "Invalid prefix, (expected: '0142', '0143' | got: '0000')"). rewrite G by reflexivity. reflexivity.
  - exists (Some (str "moon")), [], [], false. split; [exact toy_ok|]. split; [exact btc_constructed|]. eexists; split; [apply decrypt_no_net, moon|reflexivity].
  - (* hashes of the toy family start with zero bytes, so no address hash is 0x01010101 *)
    exists None, (b58 ([x01; x42] ++ [xc0] ++ repeat x01 4 ++ repeat x44 16 ++ repeat x44 16 ++ repeat x00 4)), [], false.
    split; [exact toy_ok|]. split; [exact btc_constructed|]. goes (Lib CPassphraseError "Incorrect passphrase"). rewrite G by reflexivity.
    replace (bytes_eqb [x01; x42] [x01; x42]) with true by reflexivity.
    unfold decrypt_no_ec_result. replace (utf8_encode (h_nfc toy [])) with (Ok [] : res bytes) by reflexivity. cbv zeta.
    replace (_ || _) with true by reflexivity. cbv iota.
    set (x := xor _ _). assert (X : x = repeat x67 32) by (vm_compute; reflexivity). rewrite X.
    replace (_ || _) with false by (vm_compute; reflexivity). replace (zero_first _) with false by (vm_compute; reflexivity). cbv iota.
    unfold ahash. set (m := List.map n2b _). rewrite bytes_eqb_neq; [reflexivity|]. intros E. discriminate E.
  - exists None, [], [], false. split; [exact toy_ok|]. split; [exact btc_constructed|]. goes (Lib CWIFError (error_text "Invalid encrypted WIF length" (str "43") (dec 0))).
    apply (decrypt_bad_length toy _ _ _ _ _ _ [] _ _ N); [reflexivity|discriminate].
  - destruct C12_zero_example as (s & e & _ & _ & E). exists None, e, (str "Satoshi"), false. split; [exact toy_ok|]. split; [exact btc_constructed|].
    eexists; split; [exact E|reflexivity].
  - set (pf := pass_factor toy false [] (repeat x00 8)). set (S := kdf2 toy (ser true (pubof (be2z pf))) (repeat x00 4) (repeat x00 8)).
    set (e2 := h_aes_enc toy (from 32 S) (slice 16 32 S)).
    assert (LS : List.length S = 64%nat) by apply (kdf2_length toy toy_ok).
    assert (LK : List.length (from 32 S) = 32%nat) by (rewrite from_length; lia).
    assert (LM : List.length (slice 16 32 S) = 16%nat) by (rewrite slice_length; lia).
    assert (L2 : List.length e2 = 16%nat) by (apply (aes_enc_len toy toy_ok); assumption).
    assert (T : ec_tail toy S e2 = [x00]).
    { unfold ec_tail, e2. rewrite (aes_dec_enc toy toy_ok) by assumption.
      assert (Z : forall l : bytes, strip_zeros (xor l l) = []).
      { induction l as [|b l IH]; [reflexivity|]. cbn [xor strip_zeros]. replace (byte_xor b b) with x00 by (symmetry; apply byte_xor_0; reflexivity). exact IH. }
      unfold shortest. rewrite Z. reflexivity. }
    clearbody e2.
    exists None, (b58 ([x01; x43] ++ [x00] ++ repeat x00 4 ++ repeat x00 16 ++ e2 ++ repeat x00 4)), [], false.
    split; [exact toy_ok|]. split; [exact btc_constructed|]. goes (Builtin ValueError). rewrite G by (reflexivity || assumption).
    replace (bytes_eqb [x01; x43] [x01; x42]) with false by reflexivity. replace (bytes_eqb [x01; x43] [x01; x43]) with true by reflexivity. cbv iota.
    change (upto 8 (repeat x00 16)) with (repeat x00 8). change (from 8 (repeat x00 16)) with (repeat x00 8).
    unfold decrypt_ec_result. replace (utf8_encode (h_nfc toy [])) with (Ok [] : res bytes) by reflexivity. cbv zeta.
    rewrite toy_pf_ok by reflexivity. change (lotb x00) with false. fold pf. fold S.
    rewrite T. change (8 <=? List.length [x00])%nat with false. cbv iota. reflexivity.
  - exists None, [0xE9%N], [], false. split; [exact toy_ok|]. split; [exact btc_constructed|]. goes (Builtin UnicodeEncodeError).
    apply (decrypt_non_ascii toy _ _ _ _ _ _ _ _ N not_ascii_e9).
Qed.

(** ** C44: the text of an exception *)
(** items separated by a comma and a space, each in single quotes *)
(** str(Error(message, detail, expected=, got=)) *)
Theorem C44_text : forall message detail expected got,
  error_str (error_init message detail expected got) =
  message ++
  match expectation expected with Some t => str ", (expected: " ++ t ++ str " | got: '" ++ got ++ str "')" | None => [] end ++
  match detail with Some (c :: d) => str " " ++ c :: d | _ => [] end.
Proof. exact error_str_text. Qed.
(** A message alone is the text. *)
Theorem C44_message_only : forall message got, error_str (error_init message None ExpNone got) = message.
Proof. intros. rewrite C44_text. apply app_nil_r. Qed.
Example C44_example :
  error_str (error_init (str "Invalid owner salt length") None (ExpList [str "8"; str "4"]) (str "3")) =
    str "Invalid owner salt length, (expected: '8', '4' | got: '3')" /\
  error_str (error_init (str "Incorrect passphrase") (Some (str "(x)")) ExpNone (str "None")) = str "Incorrect passphrase (x)" /\
  error_str (error_init (str "m") None (ExpOther (str "26") true) (str "None")) = str "m, (expected: 26 | got: 'None')".
Proof. split; [|split]; reflexivity. Qed.
