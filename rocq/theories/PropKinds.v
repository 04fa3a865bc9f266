(** * C102: texts of one kind are refused as another *)
From Coq Require Import Lia ZifyBool ZifyNat ZifyN.
From Verif Require Import Exceptions ErrorFacts Py Prims Const Spec PyFacts Utils UtilsFacts Base58 Base58Facts Crypto
  Curve SpecCurve Secp256k1 P2PKHAddress Cryptocurrencies Wif Bip38 SpecBip38 SpecRecords SpecReads SpecSession SpecOutcome
  CodecFacts CodecFacts2 ReadFacts Bip38Facts Bip38Facts2 Sessions Toy PropBase58 PropUtils PropCodec PropSession PropEC PropIntermediate PropMessages PropErrors.

(** ** What is claimed *)
Inductive kind := EncryptedKey | ConfirmationCode | IntermediateCode | WalletImportFormat | Address.
(** A text is accepted as of a kind if the function that reads texts of that kind returns
    a result for it, in any session, with any passphrase and other arguments; prefixes are
    numbers of one or two bytes, as in the coin table (C39) *)
Definition accepted (P : prims) (k : kind) (s : pystr) : Prop :=
  match k with
  | EncryptedKey => exists self network w a pw detail r, session self network w a /\ decrypt P self s pw network detail = Ok r
  | ConfirmationCode => exists self network w a pw detail r, session self network w a /\ confirm_code P self pw s network detail = Ok r
  | IntermediateCode => exists self network w a random t arg r,
      session self network w a /\ create_new_encrypted_wif P random self s t arg network = Ok r
  | WalletImportFormat => exists w r, 0 <= w <= 65535 /\ decode_wif s w = Ok r
  | Address => exists a r, 0 <= a <= 65535 /\ P2PKH_decode P s (Some a) None = Ok r
  end.

(** ** Facts *)
Lemma pre_two w : 0 <= w <= 65535 -> (1 <= List.length (pre w) <= 2)%nat.
Proof.
  intros H. destruct (pre_minimal w ltac:(lia)) as [V M]. set (l := pre w) in *. clearbody l.
  split.
  - destruct l; [discriminate M|cbn; lia].
  - destruct (le_lt_dec (List.length l) 2) as [|G]; [assumption|exfalso].
    destruct l as [|b r]; [cbn in G; lia|].
    assert (N : b <> x00).
    { intros ->. assert (Lr : r <> []) by (destruct r; [cbn in G; lia|discriminate]).
      pose proof (shortest_length_lt (x00 :: r)) as X. cbn [first_byte List.length] in X. rewrite M in X. cbn [List.length] in X.
      destruct r; [congruence|]. cbn [List.length] in X. specialize (X ltac:(lia) eq_refl). lia. }
    assert (B : 1 <= byte_value b). { unfold byte_value. destruct b; try (exfalso; apply N; reflexivity); cbn; lia. }
    cbn [List.length] in G. unfold be_value in V. cbn [List.map digits_value] in V. rewrite map_length in V.
    assert (0 <= digits_value 256 (List.map byte_value r)) by (change (0 <= be_value r); rewrite be_value_be2z; pose proof (be2z_bound r); lia).
    assert (256 ^ 2 <= 256 ^ Z.of_nat (List.length r)) by (apply Z.pow_le_mono_r; lia). change (256 ^ 2) with 65536 in *. nia.
Qed.
Definition sizes (k : kind) : list nat :=
  match k with
  | EncryptedKey => [43] | ConfirmationCode => [55] | IntermediateCode => [53]
  | WalletImportFormat => [37; 38; 39] | Address => [25; 26]
  end%nat.
Lemma kind_size P k s : prims_ok P -> accepted P k s -> exists raw, decode s base58_alphabet = Ok raw /\ In (List.length raw) (sizes k).
Proof.
  intros HP A. destruct k; cbn [accepted] in A.
  - destruct A as (self & network & w & a & pw & detail & r & HS & E). destruct (session_net_sel _ _ _ _ HS) as (n & N).
    destruct (decode_cases s) as [[d D]|D].
    + exists d. split; [exact D|]. destruct (Nat.eq_dec (List.length d) 43) as [L|L]; [left; congruence|].
      rewrite (decrypt_bad_length P _ _ _ _ _ _ _ _ _ N D L) in E. discriminate E.
    + unfold decrypt in E. rewrite (ns_sel _ _ _ _ _ N) in E. cbn [bind] in E. rewrite D in E. discriminate E.
  - destruct A as (self & network & w & a & pw & detail & r & HS & E). destruct (session_net_sel _ _ _ _ HS) as (n & N).
    pose proof (confirm_bad P self network n w a s pw detail N) as B. destruct (check_decode P s base58_alphabet) as [d|e] eqn:D; [|rewrite B in E; discriminate E].
    apply (check_decode_decode P HP) in D. eexists. split; [exact D|]. destruct (Nat.eq_dec (List.length d) 51) as [L|L]; [|rewrite (B L) in E; discriminate E].
    left. rewrite app_length, checksum4_length by exact HP. lia.
  - destruct A as (self & network & w & a & random & t & arg & r & HS & E). destruct (session_net_sel _ _ _ _ HS) as (n & N).
    rewrite (create_eq P HP _ _ _ _ _ _ _ _ _ N) in E. destruct (entropy_arg random arg); [|discriminate E].
    destruct (check_decode P s base58_alphabet) as [d|e] eqn:D; [|discriminate E]. unfold create_result in E.
    destruct (Nat.eqb_spec (List.length d) 49) as [L|L]; [|discriminate E]. apply (check_decode_decode P HP) in D. eexists. split; [exact D|].
    left. rewrite app_length, checksum4_length by exact HP. lia.
  - destruct A as (w & [[k t] ck] & Hw & E). apply C09_decode_wif_exact in E; [|lia]. destruct E as (raw & c & D & _ & p & m & M & Lk & Lc & Lm & ->).
    apply reads_code in D. eexists. split; [exact D|]. rewrite (minimal_unique _ _ M) in *. pose proof (pre_two w Hw). rewrite !app_length, Lk, Lc, Lm.
    cbn [sizes In]. destruct c; lia.
  - destruct A as (a & r & Ha & E). apply (P2PKH_decode_iff P s (Some a) None r HP ltac:(cbn; lia)) in E. destruct E as (h & Lh & -> & D).
    apply (check_decode_decode P HP) in D. eexists. split; [exact D|]. cbn [default]. pose proof (pre_two a Ha).
    rewrite !app_length, Lh, checksum4_length by exact HP. cbn [sizes In]. lia.
Qed.
Lemma sizes_apart k k' n : In n (sizes k) -> In n (sizes k') -> k = k'.
Proof. destruct k, k'; cbn [sizes In]; intros H1 H2; trivial; exfalso; lia. Qed.

(** ** Theorems *)
(** No text is accepted as of two kinds *)
Theorem C102_one_kind : forall P s k k', prims_ok P -> accepted P k s -> accepted P k' s -> k = k'.
Proof.
  intros P s k k' HP A A'. apply (kind_size P k s HP) in A. apply (kind_size P k' s HP) in A'. destruct A as (raw & D & I), A' as (raw' & D' & I').
  rewrite D in D'. apply Ok_inj in D'. subst raw'. exact (sizes_apart _ _ _ I I').
Qed.
(** encrypt takes texts of the fourth kind only *)
Theorem C102_encrypt_kind : forall P self network w a s pw r, prims_ok P -> session self network w a -> w <= 65535 ->
  encrypt P self s pw network = Ok r -> accepted P WalletImportFormat s.
Proof.
  intros P self network w a s pw r HP HS Hw E. destruct (session_net_sel _ _ _ _ HS) as (n & N). rewrite (encrypt_eq P HP _ _ _ _ _ _ _ N) in E.
  destruct (decode_wif s w) as [x|e] eqn:D; [|discriminate E]. exists w, x. split; [pose proof (ns_w _ _ _ _ _ N); lia|exact D].
Qed.
(** What the reader of another kind does: always an exception, which tells nothing but the
    length or that the text is not of its kind *)
Theorem C102_decrypt : forall P k s self network w a pw detail, prims_ok P -> session self network w a -> accepted P k s -> k <> EncryptedKey ->
  exists n, In n [25; 26; 37; 38; 39; 53; 55]%Z /\
    decrypt P self s pw network detail = Raise (Lib CWIFError (error_text "Invalid encrypted WIF length" (str "43") (dec n))).
Proof.
  intros P k s self network w a pw detail HP HS A NK. destruct (kind_size P k s HP A) as (raw & D & I). destruct (session_net_sel _ _ _ _ HS) as (n & N).
  exists (zlen raw). unfold zlen. split; [destruct k; try (exfalso; apply NK; reflexivity); cbn [sizes In] in *; lia|]. apply (decrypt_bad_length P _ _ _ _ _ _ _ _ _ N D).
  intros L. apply NK. apply (sizes_apart _ _ (List.length raw) I). left. symmetry. exact L.
Qed.
Theorem C102_confirm_code : forall P k s self network w a pw detail, prims_ok P -> session self network w a -> accepted P k s -> k <> ConfirmationCode ->
  exists t, confirm_code P self pw s network detail = Raise (Lib CError t) /\
    (t = str "Invalid confirmation code" \/ exists n, In n [21; 22; 33; 34; 35; 39; 49] /\ t = error_text "Invalid confirmation code length" (str "102") (dec n)).
Proof.
  intros P k s self network w a pw detail HP HS A NK. destruct (kind_size P k s HP A) as (raw & D & I). destruct (session_net_sel _ _ _ _ HS) as (n & N).
  pose proof (confirm_bad P self network n w a s pw detail N) as B. destruct (check_decode P s base58_alphabet) as [d|e] eqn:C; [|eauto].
  apply (check_decode_decode P HP) in C. rewrite D in C. apply Ok_inj in C. subst raw. rewrite app_length, checksum4_length in I by exact HP.
  eexists. split; [apply B|right; exists (zlen d); split; [|reflexivity]].
  - intros L. apply NK. apply (sizes_apart _ _ _ I). rewrite L. left. reflexivity.
  - unfold zlen. assert (L : List.length d <> 51%nat) by (intros L; apply NK, (sizes_apart _ _ _ I); rewrite L; left; reflexivity).
    destruct k; try (exfalso; apply NK; reflexivity); cbn [sizes In] in *; lia.
Qed.
Theorem C102_create : forall P k s self network w a random t arg seed, prims_ok P -> session self network w a -> argument_bytes random arg seed ->
  accepted P k s -> k <> IntermediateCode ->
  exists x, create_new_encrypted_wif P random self s t arg network = Raise (Lib CPassphraseError x) /\
    (x = str "Invalid intermediate passphrase" \/
     exists n, In n [21; 22; 33; 34; 35; 39; 51] /\ x = error_text "Invalid intermediate passphrase length" (str "49") (dec n)).
Proof.
  intros P k s self network w a random t arg seed HP HS AB A NK. destruct (kind_size P k s HP A) as (raw & D & I). destruct (session_net_sel _ _ _ _ HS) as (n & N).
  rewrite (create_eq P HP _ _ _ _ _ _ _ _ _ N). apply argument_entropy in AB. rewrite AB.
  destruct (check_decode P s base58_alphabet) as [d|e] eqn:C; [|eauto].
  apply (check_decode_decode P HP) in C. rewrite D in C. apply Ok_inj in C. subst raw. rewrite app_length, checksum4_length in I by exact HP.
  assert (L : List.length d <> 49%nat) by (intros L; apply NK, (sizes_apart _ _ _ I); rewrite L; left; reflexivity).
  unfold create_result. destruct (Nat.eqb_spec (List.length d) 49) as [|_]; [contradiction|].
  eexists. split; [reflexivity|]. right. exists (zlen d). split; [|reflexivity]. unfold zlen. destruct k; try (exfalso; apply NK; reflexivity); cbn [sizes In] in *; lia.
Qed.
Theorem C102_wif : forall P k s w, prims_ok P -> 0 <= w <= 65535 -> accepted P k s -> k <> WalletImportFormat ->
  decode_wif s w = Raise (Lib CWIFError "Invalid Wallet Import Format (WIF)") /\
  forall self network a pw, session self network w a -> encrypt P self s pw network = Raise (Lib CWIFError "Invalid Wallet Import Format (WIF)").
Proof.
  intros P k s w HP Hw A NK. destruct (kind_size P k s HP A) as (raw & D & _).
  assert (E : decode_wif s w = Raise (Lib CWIFError "Invalid Wallet Import Format (WIF)")).
  { destruct (decode_wif s w) as [r|e] eqn:E; [|rewrite (decode_wif_err _ _ _ _ (proj1 Hw) D E); reflexivity].
    exfalso. apply NK. apply (C102_one_kind P s _ _ HP A). exists w, r. split; [exact Hw|exact E]. }
  split; [exact E|]. intros self network a pw HS. destruct (session_net_sel _ _ _ _ HS) as (n & N). rewrite (encrypt_eq P HP _ _ _ _ _ _ _ N), E. reflexivity.
Qed.
Theorem C102_address : forall P k s a, prims_ok P -> 0 <= a <= 65535 -> accepted P k s -> k <> Address ->
  P2PKH_decode P s (Some a) None = Raise (Builtin ValueError) \/
  exists m n, P2PKH_decode P s (Some a) None =
    Raise (Lib CAddressError (str "Invalid length (expected: " ++ dec m ++ str ", got: " ++ dec n ++ str ")")%list) /\
    In m [21; 22] /\ In n [33; 34; 35; 39; 49; 51].
Proof.
  intros P k s a HP Ha A NK. destruct (kind_size P k s HP A) as (raw & D & I).
  destruct (P2PKH_decode P s (Some a) None) as [r|e] eqn:E.
  { exfalso. apply NK. apply (C102_one_kind P s _ _ HP A). exists a, r. split; [exact Ha|exact E]. }
  apply (C11_decode_otherwise P s (Some a) None e HP) in E; [|cbn; lia|exact bitcoin_ok]. cbv zeta in E. cbn [default] in E.
  destruct E as [[NA ->]|[(_ & _ & ->)|(d & p & R & M & E)]].
  - apply decode_non_ascii58 in NA. rewrite NA in D. discriminate D.
  - left. reflexivity.
  - right. apply (decode_reads _ bitcoin_ok) in R. change bitcoin_alphabet with base58_alphabet in R. rewrite D in R. apply Ok_inj in R. subst raw.
    rewrite app_length, checksum4_length in I by exact HP. rewrite (minimal_unique _ _ M) in *. pose proof (pre_two a Ha) as Lp.
    assert (L : ~ (List.length d = 21 \/ List.length d = 22)%nat).
    { intros L. apply NK, (sizes_apart _ _ _ I). cbn [sizes In]. lia. }
    destruct E as [[_ ->]|[X _]]; [|lia]. exists (20 + zlen (pre a)), (zlen d). split; [reflexivity|]. unfold zlen. cbn [In].
    split; [lia|]. destruct k; try (exfalso; apply NK; reflexivity); cbn [sizes In] in *; lia.
Qed.
