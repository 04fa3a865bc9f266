(** * C105: characters around a text *)
From Coq Require Import Lia ZifyBool ZifyNat ZifyN.
From Verif Require Import Exceptions ErrorFacts Py Prims Const Spec PyFacts Utils UtilsFacts Base58 Base58Facts Crypto
  Curve SpecCurve CurveFacts Secp256k1 SecpFacts P2PKHAddress Cryptocurrencies Wif Bip38 SpecBip38 SpecRecords SpecReads SpecSession SpecInterop SpecOutcome
  CodecFacts CodecFacts2 ReadFacts Bip38Facts Bip38Facts2 ECFacts Sessions RecordFacts Toy PropBase58 PropAlphabet PropUtils PropCodec PropDecrypt PropIntermediate PropCreate PropEC PropUnique PropInterop PropSession PropLetters PropKinds PropTypo.

(** ** What is claimed *)
(** ASCII characters that are no letters of the alphabet: white space, line ends, quotes,
    0, O, I, l ... *)
Definition foreign (y : pystr) : Prop := Forall (fun c => (c < 128)%N /\ ~ In c bitcoin_alphabet) y.
Example white_space_is_foreign : foreign [32; 10; 13; 9; 34; 39; 48]%N.
Proof.
  repeat constructor; try lia; intros I; apply (in_map N.to_nat) in I; vm_compute in I;
    repeat (destruct I as [I|I]; [discriminate I|]); exact I.
Qed.

(** ** Facts *)
Lemma foreign_digits y : foreign y -> List.map (digit_of bitcoin_alphabet) y = repeat (-1) (List.length y).
Proof. induction 1 as [|c y [_ N] _ IH]; [reflexivity|]. cbn [List.map List.length repeat]. rewrite (digit_other c N), IH. reflexivity. Qed.
Lemma foreign_value y : foreign y -> 57 * value_of y = 1 - 58 ^ zlen y.
Proof.
  induction 1 as [|c y [_ N] F IH]; [reflexivity|]. rewrite value_cons, (digit_other c N).
  replace (zlen (c :: y)) with (zlen y + 1) by (unfold zlen; cbn [List.length]; lia). rewrite Z.pow_add_r by (unfold zlen; lia). lia.
Qed.
Lemma digit_small c : digit_of bitcoin_alphabet c <= 57.
Proof. destruct (in_dec N.eq_dec c bitcoin_alphabet) as [I|I]; [pose proof (digit_range c I); lia|rewrite (digit_other c I); lia]. Qed.
Lemma count_from : forall ds v, (forall j, (1 <= j <= List.length ds)%nat -> v * 58 ^ Z.of_nat j + digits_value 58 (firstn j ds) <> 0) ->
  zero_prefixes bitcoin_alphabet v ds = 0%nat.
Proof.
  intros ds v H. rewrite zero_prefixes_filter. change (zlen bitcoin_alphabet) with 58.
  assert (X : forall l, (forall n, In n l -> (1 <= n <= List.length ds)%nat) ->
    filter (fun n => v * 58 ^ Z.of_nat n + digits_value 58 (firstn n ds) =? 0) l = []).
  { induction l as [|n l IH]; intros B; [reflexivity|]. cbn [filter]. destruct (Z.eqb_spec (v * 58 ^ Z.of_nat n + digits_value 58 (firstn n ds)) 0) as [E|_].
    - exfalso. exact (H n (B n (or_introl eq_refl)) E).
    - apply IH. intros m M. apply B. right. exact M. }
  rewrite X; [reflexivity|]. intros n I. apply in_seq in I. lia.
Qed.
Lemma prefixes_app A : forall a b v, zero_prefixes A v (a ++ b) = (zero_prefixes A v a + zero_prefixes A (v * zlen A ^ zlen a + digits_value (zlen A) a) b)%nat.
Proof.
  induction a as [|d a IH]; intros b v; cbn [app zero_prefixes digits_value].
  - change (zlen (@nil Z)) with 0. rewrite Z.pow_0_r, Z.mul_1_r, Z.add_0_r. reflexivity.
  - cbv zeta. rewrite IH. replace ((v * zlen A + d) * zlen A ^ zlen a + digits_value (zlen A) a) with
      (v * zlen A ^ zlen (d :: a) + (d * zlen A ^ Z.of_nat (List.length a) + digits_value (zlen A) a)).
    + lia.
    + replace (zlen (d :: a)) with (zlen a + 1) by (unfold zlen; cbn [List.length]; lia). rewrite Z.pow_add_r by (unfold zlen; lia). unfold zlen. ring.
Qed.
(** a text that starts with a foreign character is read as no bytes at all *)
Lemma read_leading c rest : foreign [c] -> is_ascii rest -> base58_reads (c :: rest) [].
Proof.
  intros F I. inversion F as [|? ? [C N] _]; subst. split; [constructor; assumption|]. exists []. split; [reflexivity|].
  change (zlen bitcoin_alphabet) with 58. fold (value_of (c :: rest)).
  assert (X : forall r v, v <= -1 -> forall j, (j <= List.length r)%nat -> v * 58 ^ Z.of_nat j + digits_value 58 (firstn j (List.map (digit_of bitcoin_alphabet) r)) <= -1).
  { induction r as [|x r IH]; intros v V j L.
    - replace j with 0%nat by (cbn in L; lia). cbn. lia.
    - destruct j as [|j]; [cbn; lia|]. cbn [List.map firstn digits_value]. rewrite firstn_length_le by (rewrite map_length; cbn in L; lia).
      pose proof (digit_small x). specialize (IH (v * 58 + digit_of bitcoin_alphabet x) ltac:(lia) j ltac:(cbn in L; lia)).
      rewrite Nat2Z.inj_succ, Z.pow_succ_r by lia. lia. }
  assert (X1 := X rest (-1) ltac:(lia) (List.length rest) (le_n _)). rewrite firstn_all2 in X1 by (rewrite map_length; lia).
  split.
  - rewrite value_cons, (digit_other c N). unfold value_of, zlen. change (be_value []) with 0. lia.
  - rewrite (zero_prefix_count_eq bitcoin_alphabet). cbn [List.map zero_prefixes]. cbv zeta. rewrite (digit_other c N).
    change (0 * zlen bitcoin_alphabet + -1) with (-1). change (-1 =? 0) with false. cbn [Nat.add]. rewrite count_from; [reflexivity|].
    intros j L. rewrite map_length in L. specialize (X rest (-1) ltac:(lia) j ltac:(lia)). lia.
Qed.
(** what stands behind a text is not ignored: the value is multiplied by 58 for every
    character, less one each time *)
Lemma read_trailing s d y : base58_reads s d -> 0 < be_value d -> foreign y -> y <> [] ->
  exists d', base58_reads (s ++ y) d' /\ 57 * be_value d' = 57 * (58 ^ zlen y * be_value d) - (58 ^ zlen y - 1) /\
    (first_byte d <> x00 -> first_byte d' <> x00).
Proof.
  intros R V F NY. pose proof (read_value s d R) as RV. destruct R as (I & b & S & Vb & Ed).
  assert (VS : value_of s = be_value d) by lia. pose proof (foreign_value y F) as FV.
  assert (P58 : 0 < 58 ^ zlen y) by (apply Z.pow_pos_nonneg; unfold zlen; lia).
  assert (VA : 57 * value_of (s ++ y) = 57 * (58 ^ zlen y * be_value d) - (58 ^ zlen y - 1)).
  { rewrite value_app, VS. lia. }
  assert (Pos : 0 < value_of (s ++ y)) by nia.
  destruct (value_exists _ Pos) as (b' & S' & V').
  exists (repeat x00 (zero_prefix_count 58 (List.map (digit_of bitcoin_alphabet) (s ++ y))) ++ b').
  split.
  - split; [apply Forall_app; split; [exact I|eapply Forall_impl; [|exact F]; cbn; tauto]|]. exists b'. split; [exact S'|]. split; [|reflexivity].
    change (zlen bitcoin_alphabet) with 58. fold (value_of (s ++ y)). rewrite be_value_be2z, V'. lia.
  - split; [rewrite be_value_be2z, be2z_zeros, V'; exact VA|]. intros N.
    change 58 with (zlen bitcoin_alphabet). rewrite (zero_prefix_count_eq bitcoin_alphabet), map_app, prefixes_app.
    rewrite <- (zero_prefix_count_eq bitcoin_alphabet). change (zlen bitcoin_alphabet) with 58 in *.
    assert (K : zero_prefix_count 58 (List.map (digit_of bitcoin_alphabet) s) = 0%nat).
    { destruct (zero_prefix_count 58 _); [reflexivity|]. exfalso. apply N. rewrite Ed. reflexivity. }
    rewrite K. rewrite count_from.
    + cbn [Nat.add repeat app]. intros Z. destruct b' as [|x b']; [cbn in V'; lia|]. cbn [first_byte] in Z. subst x. cbn [strip_zeros] in S'.
      change (Byte.eqb x00 x00) with true in S'. cbn iota in S'. apply (f_equal (@List.length byte)) in S'. pose proof (strip_zeros_length b'). cbn in S'. lia.
    + intros j L. rewrite map_length in L. rewrite Z.mul_0_l, Z.add_0_l. fold (value_of s). rewrite VS. rewrite firstn_map. fold (value_of (firstn j y)).
      assert (Fj : foreign (firstn j y)) by (unfold foreign in *; rewrite <- (firstn_skipn j y) in F; apply Forall_app in F; apply F).
      pose proof (foreign_value _ Fj) as FVj. unfold zlen in FVj. rewrite firstn_length_le in FVj by lia.
      assert (0 < 58 ^ Z.of_nat j) by (apply Z.pow_pos_nonneg; lia). nia.
Qed.
Lemma length_bounds d : first_byte d <> x00 -> 256 ^ (zlen d - 1) <= be_value d < 256 ^ zlen d.
Proof.
  intros N. split; [|apply be_bound]. destruct d as [|x d]; [destruct N; reflexivity|]. cbn [first_byte] in N.
  rewrite be_value_be2z, be2z_cons. replace (zlen (x :: d) - 1) with (zlen d) by (unfold zlen; cbn [List.length]; lia).
  pose proof (be2z_bound d). assert (0 < b2z x).
  { destruct (Z.eq_dec (b2z x) 0) as [E|]; [|pose proof (b2z_range x); lia]. exfalso. apply N. destruct x; try discriminate E; reflexivity. }
  assert (0 < 256 ^ zlen d) by (apply Z.pow_pos_nonneg; unfold zlen; lia). nia.
Qed.

(** ** Something in front: no bytes are read, and every reader refuses *)
Theorem C105_leading : forall P c rest, prims_ok P -> foreign [c] -> is_ascii rest ->
  decode (c :: rest) bitcoin_alphabet = Ok [] /\ check_decode P (c :: rest) bitcoin_alphabet = Raise (Builtin ValueError) /\
  (forall a, 0 <= a -> P2PKH_decode P (c :: rest) (Some a) None = Raise (Builtin ValueError)) /\
  (forall w, 0 <= w -> decode_wif (c :: rest) w = Raise (Lib CWIFError "Invalid Wallet Import Format (WIF)")) /\
  forall self network w a pw detail, session self network w a ->
    decrypt P self (c :: rest) pw network detail = Raise (Lib CWIFError (error_text "Invalid encrypted WIF length" (str "43") (str "0"))) /\
    encrypt P self (c :: rest) pw network = Raise (Lib CWIFError "Invalid Wallet Import Format (WIF)") /\
    confirm_code P self pw (c :: rest) network detail = Raise (Lib CError "Invalid confirmation code") /\
    forall random t arg seed, argument_bytes random arg seed ->
      create_new_encrypted_wif P random self (c :: rest) t arg network = Raise (Lib CPassphraseError "Invalid intermediate passphrase").
Proof.
  intros P c rest HP F I. pose proof (read_leading c rest F I) as R.
  assert (D : decode (c :: rest) base58_alphabet = Ok []) by (apply reads_code, R).
  assert (CD : check_decode P (c :: rest) base58_alphabet = Raise (Builtin ValueError)).
  { destruct (check_decode P (c :: rest) base58_alphabet) as [d|e] eqn:E.
    - exfalso. apply (check_decode_decode P HP) in E. rewrite D in E. apply Ok_inj in E. apply (f_equal (@List.length byte)) in E.
      rewrite app_length, checksum4_length in E by exact HP. cbn in E. lia.
    - apply (check_decode_err P _ bitcoin_ok) in E. destruct E as [[-> _]|[-> NA]]; [reflexivity|].
      exfalso. apply NA. constructor; [inversion F as [|? ? [X _] _]; exact X|exact I]. }
  assert (W : forall w, 0 <= w -> decode_wif (c :: rest) w = Raise (Lib CWIFError "Invalid Wallet Import Format (WIF)")).
  { intros w Hw. destruct (decode_wif (c :: rest) w) as [[[k t] ck]|e] eqn:E; [|rewrite (decode_wif_err _ _ _ _ Hw D E); reflexivity].
    exfalso. apply (C09_decode_wif_exact _ _ _ _ _ Hw) in E. destruct E as (raw & cp & R' & _ & (p & m & _ & Lk & _ & _ & ->)).
    apply reads_code in R'. rewrite D in R'. apply Ok_inj in R'. apply (f_equal (@List.length byte)) in R'. rewrite !app_length, Lk in R'. cbn in R'. lia. }
  split; [exact D|]. split; [exact CD|]. split.
  { intros a Ha. rewrite (P2PKH_decode_eq P _ (Some a) None Ha). cbn [default]. change bitcoin_alphabet with base58_alphabet. rewrite CD. reflexivity. }
  split; [exact W|]. intros self network w a pw detail HS. destruct (session_net_sel _ _ _ _ HS) as (n & N).
  split; [rewrite (decrypt_bad_length P _ _ _ _ _ _ [] _ _ N D ltac:(discriminate)); reflexivity|].
  split; [rewrite (encrypt_eq P HP _ _ _ _ _ _ _ N), (W w (ns_w _ _ _ _ _ N)); reflexivity|].
  split; [pose proof (confirm_bad P self network n w a (c :: rest) pw detail N) as B; rewrite CD in B; exact B|].
  intros random t arg seed AB. rewrite (create_eq P HP _ _ _ _ _ _ _ _ _ N). apply argument_entropy in AB. rewrite AB, CD. reflexivity.
Qed.

(** ** Something behind *)
Lemma pow58 (y : pystr) : y <> [] -> 58 <= 58 ^ zlen y /\ (List.length y = 1%nat \/ 3364 <= 58 ^ zlen y).
Proof.
  intros N. unfold zlen. destruct y as [|x [|z y]]; [congruence|split; [cbn; lia|left; reflexivity]|].
  assert (58 ^ 2 <= 58 ^ Z.of_nat (List.length (x :: z :: y))) by (apply Z.pow_le_mono_r; cbn [List.length]; lia).
  change (58 ^ 2) with 3364 in *. split; [lia|right; lia].
Qed.
(** never the same bytes *)
Theorem C105_trailing : forall s y d d', foreign y -> y <> [] -> base58_reads s d -> base58_reads (s ++ y) d' -> be_value d <> 0 -> d' <> d.
Proof.
  intros s y d d' F NY R R' NZ ->. pose proof (be_bound d). destruct (read_trailing s d y R ltac:(lia) F NY) as (d1 & R1 & V1 & _).
  apply reads58 in R', R1. rewrite R' in R1. apply Ok_inj in R1. subst d1. destruct (pow58 y NY) as [B _]. nia.
Qed.
Theorem C105_check_decode : forall P s y d d', prims_ok P -> foreign y -> y <> [] -> be_value d <> 0 ->
  check_decode P s bitcoin_alphabet = Ok d -> check_decode P (s ++ y) bitcoin_alphabet = Ok d' -> d' <> d.
Proof.
  intros P s y d d' HP F NY NZ R R' ->. apply (reads58check P HP) in R, R'. apply (C105_trailing s y _ _ F NY R R'); [|reflexivity].
  rewrite be_app. pose proof (be_bound d). pose proof (be_bound (checksum4 P d)). assert (0 < 256 ^ zlen (checksum4 P d)) by (apply Z.pow_pos_nonneg; unfold zlen; lia). nia.
Qed.
Lemma first_not_zero b l : b <> x00 -> first_byte (b :: l) <> x00. Proof. exact (fun H => H). Qed.
(** an encrypted key: refused for its prefix (one character), or its length (several) *)
Theorem C105_decrypt : forall P self network w a self' network' w' a' s y pw pw' detail detail' r, prims_ok P ->
  session self network w a -> session self' network' w' a' -> foreign y -> y <> [] ->
  decrypt P self s pw network detail = Ok r ->
  (List.length y = 1%nat -> exists p, decrypt P self' (s ++ y) pw' network' detail' = Raise (Lib CError (error_text "Invalid prefix" (str "'0142', '0143'") p))) /\
  (List.length y <> 1%nat -> exists n, 43 < n /\
    decrypt P self' (s ++ y) pw' network' detail' = Raise (Lib CWIFError (error_text "Invalid encrypted WIF length" (str "43") (dec n)))).
Proof.
  intros P self network w a self' network' w' a' s y pw pw' detail detail' r HP HS HS' F NY E. destruct (session_net_sel _ _ _ _ HS) as (n & N).
  destruct (decrypt_inv P _ _ _ _ _ _ _ _ _ HP N E) as (p & f & ah & e1 & e2 & ck & c & k & seed & lot & sq & pwb & D & Lp & La & L1 & L2 & Lc & _ & _ & _ & _ & _ & M).
  assert (PV : 322 <= be_value p <= 323 /\ first_byte p <> x00).
  { destruct M as [(-> & _)|(-> & _)]; (split; [vm_compute; split; congruence|discriminate]). }
  destruct PV as [PV PN]. remember ([f] ++ ah ++ e1 ++ e2 ++ ck) as t eqn:Et.
  assert (Lt : List.length t = 41%nat) by (subst t; rewrite !app_length, La, L1, L2, Lc; reflexivity). clear Et M.
  apply reads_code in D. pose proof (be_app p t) as BV. pose proof (be_bound t) as Bt. unfold zlen in BV, Bt. rewrite Lt in BV, Bt.
  change (Z.of_nat 41) with 41 in *.
  assert (Q : 0 < be_value (p ++ t)). { assert (0 < 256 ^ 41) by reflexivity. nia. }
  destruct (read_trailing s _ y D Q F NY) as (d' & R' & V' & N').
  assert (FN : first_byte (p ++ t) <> x00) by (destruct p; [discriminate Lp|exact PN]). specialize (N' FN).
  pose proof (length_bounds d' N') as LB. set (K := 58 ^ zlen y) in *. set (V := be_value (p ++ t)) in *.
  assert (Low : K * (V - 1) <= be_value d') by (destruct (pow58 y NY) as [B1 _]; fold K in B1; lia).
  assert (V1 : 322 * 256 ^ 41 <= V < 324 * 256 ^ 41) by nia.
  split.
  - intros Ly. assert (KE : K = 58) by (unfold K, zlen; rewrite Ly; reflexivity).
    assert (LD : List.length d' = 43%nat).
    { assert (zlen d' = 43); [|unfold zlen in *; lia].
      assert (G1 : be_value d' < 256 ^ 43) by (change (256 ^ 43) with (65536 * 256 ^ 41); lia).
      assert (G2 : 256 ^ 42 <= be_value d') by (change (256 ^ 42) with (256 * 256 ^ 41); lia).
      assert (zlen d' - 1 < 43) by (apply (Z.pow_lt_mono_r_iff 256); lia).
      assert (42 < zlen d') by (apply (Z.pow_lt_mono_r_iff 256); unfold zlen in *; lia). lia. }
    exists (hex (slice 0 2 d')).
    assert (DC : d' = slice 0 2 d' ++ skipn 2 d') by (unfold slice; cbn [skipn]; change (2 - 0)%nat with 2%nat; symmetry; apply firstn_skipn).
    assert (X : 323 < be_value (slice 0 2 d')).
    { rewrite DC in Low. rewrite be_app in Low. pose proof (be_bound (skipn 2 d')) as Bs. unfold zlen in Low, Bs. rewrite skipn_length, LD in Low, Bs.
      change (Z.of_nat (43 - 2)) with 41 in *. assert (0 < 256 ^ 41) by reflexivity. nia. }
    apply (C18_wrong_prefix P self' network' w' a' _ d' pw' detail' HP HS' R' LD); intros Q0; rewrite Q0 in X; vm_compute in X; discriminate X.
  - intros Ly. destruct (pow58 y NY) as [_ [B|B]]; [contradiction|]. fold K in B.
    assert (G1 : 256 ^ 43 <= be_value d') by (change (256 ^ 43) with (65536 * 256 ^ 41); assert (0 < 256 ^ 41) by reflexivity; nia).
    assert (LD : 43 < zlen d') by (apply (Z.pow_lt_mono_r_iff 256); unfold zlen in *; lia).
    exists (zlen d'). split; [exact LD|]. apply (C18_wrong_length P self' network' w' a' _ d' pw' detail' HS' R'). unfold zlen in LD. lia.
Qed.
(** a number of one byte, or two, in front of bytes *)
Lemma grown p t p' t' V V' (y : pystr) w : minimal_bytes w p -> minimal_bytes w p' -> 1 <= w -> y <> [] ->
  V = be_value (p ++ t) -> V' = be_value (p' ++ t') -> 57 * V' = 57 * (58 ^ zlen y * V) - (58 ^ zlen y - 1) ->
  List.length t' = List.length t \/ List.length t = S (List.length t') \/ List.length t' = S (List.length t) /\ List.length y <> 0%nat ->
  (1 <= List.length t)%nat -> (1 <= List.length t')%nat -> False.
Proof.
  intros M M' Hw NY -> -> E L T1 T2. rewrite !be_app in E. destruct M as [MV _], M' as [MV' _]. rewrite MV, MV' in E.
  pose proof (be_bound t) as B. pose proof (be_bound t') as B'. destruct (pow58 y NY) as [K1 K2].
  set (K := 58 ^ zlen y) in *. unfold zlen in *.
  assert (PP : 256 <= 256 ^ Z.of_nat (List.length t) /\ 256 <= 256 ^ Z.of_nat (List.length t')).
  { split; (replace 256 with (256 ^ 1) at 1 by reflexivity); apply Z.pow_le_mono_r; lia. }
  set (x := be_value t) in *. set (x' := be_value t') in *. clearbody x x'.
  destruct L as [L|[L|[L _]]]; rewrite L in *; try rewrite Nat2Z.inj_succ, Z.pow_succ_r in * by lia.
  - set (M := 256 ^ Z.of_nat (List.length t)) in *. clearbody M. nia.
  - set (M := 256 ^ Z.of_nat (List.length t')) in *. clearbody M. nia.
  - set (M := 256 ^ Z.of_nat (List.length t)) in *. clearbody M.
    destruct K2 as [Ly|K2]; [|nia]. assert (KE : K = 58) by (unfold K; rewrite Ly; reflexivity). clearbody K. subst K. nia.
Qed.
Theorem C105_decode_wif : forall s y w k t ck, 1 <= w -> foreign y -> y <> [] ->
  decode_wif s w = Ok (k, t, ck) -> decode_wif (s ++ y) w = Raise (Lib CWIFError "Invalid Wallet Import Format (WIF)").
Proof.
  intros s y w k t ck Hw F NY E. assert (Hw0 : 0 <= w) by lia. apply (C09_decode_wif_exact _ _ _ _ _ Hw0) in E.
  destruct E as (raw & c & R & _ & (p & m & Mp & Lk & Lc & Lm & ->)).
  assert (Q : 0 < be_value (p ++ k ++ m ++ ck)).
  { rewrite be_app. destruct Mp as [-> _]. pose proof (be_bound (k ++ m ++ ck)). assert (0 < 256 ^ zlen (k ++ m ++ ck)) by (apply Z.pow_pos_nonneg; unfold zlen; lia). nia. }
  destruct (read_trailing s _ y R Q F NY) as (d' & R' & V' & _). pose proof (proj1 (reads_code _ _) R') as D'.
  destruct (decode_wif (s ++ y) w) as [[[k' t'] ck']|e] eqn:E; [|rewrite (decode_wif_err _ _ _ _ Hw0 D' E); reflexivity].
  exfalso. apply (C09_decode_wif_exact _ _ _ _ _ Hw0) in E. destruct E as (raw' & c' & R'' & _ & (p' & m' & Mp' & Lk' & Lc' & Lm' & ->)).
  apply reads_code in R''. rewrite D' in R''. apply Ok_inj in R''. subst d'.
  apply (grown p (k ++ m ++ ck) p' (k' ++ m' ++ ck') _ _ y w Mp Mp' Hw NY eq_refl eq_refl V'); rewrite !app_length, ?Lk, ?Lk', ?Lc, ?Lc', ?Lm, ?Lm'.
  - destruct y; [congruence|]. destruct c, c'; cbn; lia.
  - lia.
  - lia.
Qed.
Theorem C105_encrypt : forall P self network w a s y pw x, prims_ok P -> session self network w a -> 1 <= w -> foreign y -> y <> [] ->
  decode_wif s w = Ok x -> encrypt P self (s ++ y) pw network = Raise (Lib CWIFError "Invalid Wallet Import Format (WIF)").
Proof.
  intros P self network w a s y pw [[k t] ck] HP HS Hw F NY E. destruct (session_net_sel _ _ _ _ HS) as (n & N).
  rewrite (encrypt_eq P HP _ _ _ _ _ _ _ N), (C105_decode_wif s y w k t ck Hw F NY E). reflexivity.
Qed.
(** addresses with a prefix other than zero *)
Theorem C105_address : forall P s y a h, prims_ok P -> 1 <= a -> foreign y -> y <> [] ->
  P2PKH_decode P s (Some a) None = Ok h -> exists e, P2PKH_decode P (s ++ y) (Some a) None = Raise e.
Proof.
  intros P s y a h HP Ha F NY E. assert (Ha0 : 0 <= default default_address_prefix (Some a)) by (cbn [default]; lia).
  destruct (P2PKH_decode P (s ++ y) (Some a) None) as [h'|e] eqn:E'; [exfalso|eauto].
  apply (P2PKH_decode_iff P _ _ _ _ HP Ha0) in E, E'. cbn [default] in E, E'. destruct E as (x & Lx & _ & E), E' as (x' & Lx' & _ & E').
  apply (reads58check P HP) in E, E'. unfold base58check_reads in E, E'. rewrite <- app_assoc in E, E'.
  pose proof (pre_minimal a ltac:(lia)) as M.
  assert (Q : 0 < be_value (pre a ++ x ++ checksum4 P (pre a ++ x))).
  { rewrite be_app. destruct M as [-> _]. pose proof (be_bound (x ++ checksum4 P (pre a ++ x))).
    assert (0 < 256 ^ zlen (x ++ checksum4 P (pre a ++ x))) by (apply Z.pow_pos_nonneg; unfold zlen; lia). nia. }
  destruct (read_trailing s _ y E Q F NY) as (d' & R' & V' & _). apply reads58 in R', E'. rewrite E' in R'. apply Ok_inj in R'. subst d'.
  apply (grown _ _ _ _ _ _ y a M M Ha NY eq_refl eq_refl V'); rewrite !app_length, !checksum4_length by exact HP; lia.
Qed.
(** confirmation and intermediate codes *)
Lemma longer P s y d d' b : prims_ok P -> foreign y -> y <> [] -> 5 <= b2z b -> check_decode P s bitcoin_alphabet = Ok (b :: d) ->
  check_decode P (s ++ y) bitcoin_alphabet = Ok d' -> (List.length (b :: d) < List.length d')%nat.
Proof.
  intros HP F NY B E E'. apply (reads58check P HP) in E, E'. unfold base58check_reads in E, E'.
  assert (NB : b <> x00) by (intros ->; cbn in B; lia).
  set (q := (b :: d) ++ checksum4 P (b :: d)) in *.
  assert (FN : first_byte q <> x00) by exact NB. assert (Bq : 5 * 256 ^ (zlen q - 1) <= be_value q).
  { unfold q. cbn [app]. set (t := d ++ _). rewrite be_value_be2z, be2z_cons. replace (zlen (b :: t) - 1) with (zlen t) by (unfold zlen; cbn [List.length]; lia).
    pose proof (be2z_bound t). assert (0 < 256 ^ zlen t) by (apply Z.pow_pos_nonneg; unfold zlen; lia). nia. }
  assert (LQ : List.length q = (List.length (b :: d) + 4)%nat) by (unfold q; rewrite app_length, checksum4_length by exact HP; reflexivity).
  assert (P0 : 1 <= 256 ^ (zlen q - 1)).
  { assert (0 < 256 ^ (zlen q - 1)); [|lia]. apply Z.pow_pos_nonneg; [lia|]. unfold zlen. rewrite LQ. lia. }
  destruct (read_trailing s q y E ltac:(lia) F NY) as (x & R & V & N). specialize (N FN). apply reads58 in R, E'. rewrite R in E'. apply Ok_inj in E'. subst x.
  pose proof (length_bounds _ N) as LB. destruct (pow58 y NY) as [K _]. set (KK := 58 ^ zlen y) in *.
  assert (G : 256 ^ zlen q <= be_value (d' ++ checksum4 P d')).
  { replace (zlen q) with (Z.succ (zlen q - 1)) by lia. rewrite Z.pow_succ_r by (unfold zlen; rewrite LQ; lia).
    assert (KK * (be_value q - 1) <= be_value (d' ++ checksum4 P d')) by lia. nia. }
  assert (G1 : zlen q < zlen (d' ++ checksum4 P d')) by (apply (Z.pow_lt_mono_r_iff 256); [lia|unfold zlen; lia|lia]).
  unfold zlen in G1. rewrite LQ, app_length, checksum4_length in G1 by exact HP. lia.
Qed.
Theorem C105_confirm_code : forall P self network w a self' network' w' a' s y pw pw' detail detail' r, prims_ok P ->
  session self network w a -> session self' network' w' a' -> foreign y -> y <> [] ->
  confirm_code P self pw s network detail = Ok r -> exists t, confirm_code P self' pw' (s ++ y) network' detail' = Raise (Lib CError t).
Proof.
  intros P self network w a self' network' w' a' s y pw pw' detail detail' r HP HS HS' F NY E.
  destruct (session_net_sel _ _ _ _ HS) as (n & N), (session_net_sel _ _ _ _ HS') as (n' & N').
  pose proof (confirm_bad P self' network' n' w' a' (s ++ y) pw' detail' N') as B'.
  destruct (check_decode P (s ++ y) base58_alphabet) as [d'|e'] eqn:D'; [|eauto].
  pose proof (confirm_bad P self network n w a s pw detail N) as B. destruct (check_decode P s base58_alphabet) as [d|e] eqn:D; [|rewrite B in E; discriminate E].
  destruct (Nat.eq_dec (List.length d) 51) as [L|L]; [clear B|rewrite (B L) in E; discriminate E].
  destruct (cut 5 d ltac:(lia)) as (p & d1 & -> & Lp). rewrite app_length in L.
  assert (EP : p = [x64; x3b; xf6; xa8; x9a]).
  { destruct d1 as [|f d2]; [cbn in L; lia|]. cbn [List.length] in L.
    destruct (cut 4 d2 ltac:(lia)) as (ah & d3 & -> & La). rewrite app_length in L. destruct (cut 8 d3 ltac:(lia)) as (ent & d4 & -> & Le). rewrite app_length in L.
    destruct d4 as [|b0 d5]; [cbn in L; lia|]. cbn [List.length] in L. destruct (cut 16 d5 ltac:(lia)) as (q1 & q2 & -> & L1). rewrite app_length in L.
    rewrite (confirm_eq P HP self network n w a s p f ah ent b0 q1 q2 pw detail N D Lp La Le L1 ltac:(lia)) in E.
    destruct (bytes_eqb [x64; x3b; xf6; xa8; x9a] p) eqn:Q; [symmetry; apply bytes_eqb_spec, Q|discriminate E]. }
  subst p. pose proof (longer P s y _ d' x64 HP F NY ltac:(vm_compute; discriminate) D D') as G.
  eexists. apply B'. cbn [List.length app] in *. lia.
Qed.
Theorem C105_create : forall P random random' self network w a self' network' w' a' s y t t' arg arg' seed r, prims_ok P ->
  session self network w a -> session self' network' w' a' -> foreign y -> y <> [] -> argument_bytes random' arg' seed ->
  create_new_encrypted_wif P random self s t arg network = Ok r ->
  exists x, create_new_encrypted_wif P random' self' (s ++ y) t' arg' network' = Raise (Lib CPassphraseError x).
Proof.
  intros P random random' self network w a self' network' w' a' s y t t' arg arg' seed r HP HS HS' F NY AB E.
  destruct (session_net_sel _ _ _ _ HS) as (n & N), (session_net_sel _ _ _ _ HS') as (n' & N').
  rewrite (create_eq P HP _ _ _ _ _ _ _ _ _ N) in E. rewrite (create_eq P HP _ _ _ _ _ _ _ _ _ N'). apply argument_entropy in AB. rewrite AB.
  destruct (entropy_arg random arg) as [seed0|]; [|discriminate E].
  destruct (check_decode P s base58_alphabet) as [d|e] eqn:D; [|discriminate E].
  destruct (check_decode P (s ++ y) base58_alphabet) as [d'|e'] eqn:D'; [|eauto].
  unfold create_result in E. destruct (Nat.eqb_spec (List.length d) 49) as [L|L]; [|discriminate E].
  destruct (type_of t) as [c|]; [|discriminate E]. destruct (magic_of (upto 8 d)) as [lot|] eqn:MG; [|discriminate E]. clear E.
  apply magic_of_inv in MG.
  destruct d as [|b d]; [discriminate L|].
  assert (EB : b = x2c). { unfold upto in MG. cbn [firstn] in MG. destruct lot; vm_compute in MG; congruence. }
  subst b. pose proof (longer P s y d d' x2c HP F NY ltac:(vm_compute; discriminate) D D') as G.
  unfold create_result. destruct (Nat.eqb_spec (List.length d') 49) as [L'|_]; [cbn [List.length] in *; lia|]. eauto.
Qed.
