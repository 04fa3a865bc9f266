(** * C104: a mistyped character *)
From Coq Require Import Lia ZifyBool ZifyNat ZifyN.
From Verif Require Import Exceptions ErrorFacts Py Prims Const Spec PyFacts Utils UtilsFacts Base58 Base58Facts Crypto
  Curve SpecCurve CurveFacts Secp256k1 SecpFacts P2PKHAddress Cryptocurrencies Wif Bip38 SpecBip38 SpecRecords SpecReads SpecSession SpecInterop SpecOutcome
  CodecFacts CodecFacts2 ReadFacts Bip38Facts Bip38Facts2 Sessions RecordFacts Toy PropBase58 PropUtils PropCodec PropDecrypt PropIntermediate PropCreate PropEC PropUnique PropInterop PropSession PropLetters.

(** ** What is claimed *)
(** [s'] is [s] with one character replaced by another, before the last [i] characters *)
Definition mistyped (i : nat) (s s' : pystr) : Prop :=
  exists u c c' v, s = u ++ c :: v /\ s' = u ++ c' :: v /\ c <> c' /\ List.length v = i.
(** [s'] is [s] with two neighbours exchanged, before the last [i] characters *)
Definition swapped (i : nat) (s s' : pystr) : Prop :=
  exists u a b v, s = u ++ a :: b :: v /\ s' = u ++ b :: a :: v /\ a <> b /\ List.length v = i.
Definition typo (i : nat) (s s' : pystr) : Prop := mistyped i s s' \/ swapped i s s'.

(** ** Facts *)
Definition value_of (s : pystr) : Z := digits_value 58 (List.map (digit_of bitcoin_alphabet) s).
Lemma digit_range c : In c bitcoin_alphabet -> 0 <= digit_of bitcoin_alphabet c < 58.
Proof. intros I. unfold digit_of. destruct (position_in c _ I) as (i & -> & L & _). change (List.length bitcoin_alphabet) with 58%nat in L. lia. Qed.
Lemma digit_other c : ~ In c bitcoin_alphabet -> digit_of bitcoin_alphabet c = -1.
Proof. intros I. unfold digit_of. rewrite position_out by exact I. reflexivity. Qed.
Lemma digit_differs c c' : In c bitcoin_alphabet -> c <> c' -> digit_of bitcoin_alphabet c <> digit_of bitcoin_alphabet c'.
Proof.
  intros I N E. pose proof (digit_range c I) as R. destruct (in_dec N.eq_dec c' bitcoin_alphabet) as [I'|I'].
  - unfold digit_of in E. destruct (position_in c _ I) as (i & Q & L & X), (position_in c' _ I') as (j & Q' & L' & X').
    rewrite Q, Q' in E. apply N. rewrite <- X, <- X'. f_equal. lia.
  - rewrite (digit_other c' I') in E. lia.
Qed.
Lemma value_app u v : value_of (u ++ v) = value_of u * 58 ^ zlen v + value_of v.
Proof. unfold value_of. rewrite map_app, digits_value_app. unfold zlen. rewrite map_length. reflexivity. Qed.
Lemma value_cons c v : value_of (c :: v) = digit_of bitcoin_alphabet c * 58 ^ zlen v + value_of v.
Proof. unfold value_of. cbn [List.map digits_value]. unfold zlen. rewrite map_length. reflexivity. Qed.
Lemma over_cut u v : over bitcoin_alphabet (u ++ v) -> over bitcoin_alphabet u /\ over bitcoin_alphabet v.
Proof. unfold over. intros H. apply Forall_app in H. exact H. Qed.
Lemma digits_range s : over bitcoin_alphabet s -> Forall (fun d => 0 <= d < 58) (List.map (digit_of bitcoin_alphabet) s).
Proof. intros H. apply Forall_map. eapply Forall_impl; [|exact H]. intros c. apply digit_range. Qed.
Lemma value_nonneg s : over bitcoin_alphabet s -> 0 <= value_of s < 58 ^ zlen s.
Proof. intros H. pose proof (digits_value_bound 58 _ ltac:(lia) (digits_range s H)) as B. unfold zlen in *. rewrite map_length in B. exact B. Qed.
Lemma typo_length i s s' : typo i s s' -> List.length s = List.length s'.
Proof. intros [(u & c & c' & v & -> & -> & _)|(u & a & b & v & -> & -> & _)]; rewrite !app_length; reflexivity. Qed.
Lemma typo_value i s s' : over bitcoin_alphabet s -> typo i s s' ->
  exists q, q <> 0 /\ value_of s' = value_of s + q * 58 ^ Z.of_nat i.
Proof.
  intros O [(u & c & c' & v & -> & -> & N & <-)|(u & a & b & v & -> & -> & N & <-)].
  - apply over_cut in O. destruct O as [_ O]. inversion O as [|? ? I _]; subst.
    exists (digit_of bitcoin_alphabet c' - digit_of bitcoin_alphabet c). split; [pose proof (digit_differs c c' I N); lia|].
    rewrite !value_app, !value_cons. change (zlen (c' :: v)) with (zlen (c :: v)). fold (zlen v). ring.
  - apply over_cut in O. destruct O as [_ O]. inversion O as [|? ? I _]; subst.
    exists ((digit_of bitcoin_alphabet b - digit_of bitcoin_alphabet a) * 57). split; [pose proof (digit_differs a b I N); lia|].
    rewrite !value_app, !value_cons. change (zlen (b :: a :: v)) with (zlen (a :: b :: v)).
    assert (X : forall c, zlen (c :: v) = zlen v + 1) by (intros c; unfold zlen; cbn [List.length]; lia).
    rewrite !X, Z.pow_add_r by (unfold zlen; lia). fold (zlen v). ring.
Qed.
Lemma read_value s d : base58_reads s d -> be_value d = Z.max 0 (value_of s).
Proof. intros (_ & b & _ & V & ->). rewrite be_value_be2z, be2z_zeros, <- be_value_be2z. exact V. Qed.
(** two readings of [n] bytes with the same beginning are close to each other *)
Lemma be_app a b : be_value (a ++ b) = be_value a * 256 ^ zlen b + be_value b.
Proof. rewrite !be_value_be2z. apply be2z_app. Qed.
Lemma be_bound l : 0 <= be_value l < 256 ^ zlen l.
Proof. rewrite be_value_be2z. apply be2z_bound. Qed.
Lemma typo_far i n s s' p t t' : over bitcoin_alphabet s -> typo i s s' -> 256 ^ Z.of_nat n <= 58 ^ Z.of_nat i ->
  List.length t = n -> List.length t' = n -> base58_reads s (p ++ t) -> base58_reads s' (p ++ t') -> be_value p = 0.
Proof.
  intros O T G L L' R R'. apply read_value in R, R'. destruct (typo_value i s s' O T) as (q & Q & E).
  pose proof (value_nonneg s O) as VN. rewrite be_app in R, R'. pose proof (be_bound t) as B. pose proof (be_bound t') as B'. pose proof (be_bound p) as Bp.
  unfold zlen in *. rewrite L in *. rewrite L' in *.
  destruct (Z.eq_dec (be_value p) 0) as [|NZ]; [assumption|exfalso].
  set (M := 256 ^ Z.of_nat n) in *. set (K := 58 ^ Z.of_nat i) in *.
  assert (M <= be_value p * M) by nia. assert (0 < q \/ q < 0) as [Hq|Hq] by lia; nia.
Qed.

Lemma filter_all {A} (f : A -> bool) l : (forall x, In x l -> f x = true) -> filter f l = l.
Proof. induction l as [|x l IH]; intros H; [reflexivity|]. cbn [filter]. rewrite (H x (or_introl eq_refl)), IH; [reflexivity|]. intros y Y. apply H. right. exact Y. Qed.
Lemma filter_le {A} (f : A -> bool) l : (List.length (filter f l) <= List.length l)%nat.
Proof. induction l as [|x l IH]; [reflexivity|]. cbn [filter]. destruct (f x); cbn [List.length]; lia. Qed.

(** ** C104: base58.decode never takes a text and its misprint for the same bytes *)
Theorem C104_read : forall i s s' d d', over bitcoin_alphabet s -> typo i s s' -> base58_reads s d -> base58_reads s' d' -> d <> d'.
Proof.
  intros i s s' d d' O T R R' <-. pose proof (read_value _ _ R) as V. pose proof (read_value _ _ R') as V'.
  destruct (typo_value i s s' O T) as (q & Q & E). pose proof (value_nonneg s O) as VN.
  assert (q * 58 ^ Z.of_nat i <> 0). { assert (0 < 58 ^ Z.of_nat i) by (apply Z.pow_pos_nonneg; lia). nia. }
  assert (Z0 : value_of s = 0 /\ value_of s' < 0) by lia. destruct Z0 as [Z0 Z1].
  destruct R as (_ & b & S & Vb & Ed), R' as (_ & b' & S' & Vb' & Ed'). change (zlen bitcoin_alphabet) with 58 in *.
  fold (value_of s) in Vb. fold (value_of s') in Vb'.
  assert (Nb : b = []). { rewrite <- S. apply strip_zeros_nil. rewrite <- be_value_be2z. lia. }
  assert (Nb' : b' = []). { rewrite <- S'. apply strip_zeros_nil. rewrite <- be_value_be2z. lia. }
  subst b b'. rewrite app_nil_r in Ed, Ed'. apply (f_equal (@List.length byte)) in Ed, Ed'. rewrite repeat_length in Ed, Ed'.
  assert (X : zero_prefix_count 58 (List.map (digit_of bitcoin_alphabet) s) = List.length s).
  { unfold zero_prefix_count. rewrite map_length. transitivity (List.length (seq 1 (List.length s))); [|apply seq_length].
    f_equal. apply filter_all. intros n Hn. apply Z.eqb_eq. rewrite firstn_map. fold (value_of (firstn n s)).
    rewrite <- (firstn_skipn n s) in O. apply over_cut in O. destruct O as [O1 O2].
    pose proof (value_nonneg _ O1). pose proof (value_nonneg _ O2). pose proof Z0 as W. rewrite <- (firstn_skipn n s), value_app in W.
    assert (0 < 58 ^ zlen (skipn n s)) by (apply Z.pow_pos_nonneg; unfold zlen; lia). nia. }
  assert (Y : (zero_prefix_count 58 (List.map (digit_of bitcoin_alphabet) s') < List.length s')%nat).
  { unfold zero_prefix_count. rewrite map_length.
    assert (LS : (0 < List.length s')%nat). { rewrite <- (typo_length _ _ _ T). destruct T as [(u & c & c' & v & -> & _)|(u & c & c' & v & -> & _)]; rewrite app_length; cbn; lia. }
    destruct (List.length s') as [|m] eqn:L; [lia|]. rewrite seq_S, filter_app, app_length. cbn [filter].
    replace (digits_value 58 (firstn (1 + m) (List.map (digit_of bitcoin_alphabet) s')) =? 0) with false; cbn [List.length].
    - rewrite Nat.add_0_r. pose proof (filter_le (fun n => digits_value 58 (firstn n (List.map (digit_of bitcoin_alphabet) s')) =? 0) (seq 1 m)) as F.
      rewrite seq_length in F. lia.
    - symmetry. apply Z.eqb_neq. rewrite firstn_all2 by (rewrite map_length; lia). fold (value_of s'). lia. }
  pose proof (typo_length _ _ _ T). congruence || lia.
Qed.
Theorem C104_check_decode : forall P i s s' d d', prims_ok P -> over bitcoin_alphabet s -> typo i s s' ->
  check_decode P s bitcoin_alphabet = Ok d -> check_decode P s' bitcoin_alphabet = Ok d' -> d <> d'.
Proof.
  intros P i s s' d d' HP O T R R' <-. apply (reads58check P HP) in R, R'. exact (C104_read i s s' _ _ O T R R' eq_refl).
Qed.
(** an address, and its misprint as another *)
Theorem C104_address : forall P i s s' ap h h', prims_ok P -> 0 <= default default_address_prefix ap ->
  over bitcoin_alphabet s -> typo i s s' -> P2PKH_decode P s ap None = Ok h -> P2PKH_decode P s' ap None = Ok h' -> h <> h'.
Proof.
  intros P i s s' ap h h' HP Ha O T E E' Q. apply (P2PKH_decode_iff P _ _ _ _ HP Ha) in E, E'. cbn [default] in E, E'.
  destruct E as (x & _ & -> & E), E' as (x' & _ & -> & E'). apply tohex_inj in Q. subst x'.
  exact (C104_check_decode P i s s' _ _ HP O T E E' eq_refl).
Qed.

(** ** Encrypted keys: the last characters hold a checksum that nobody reads; a
    misprint before them is noticed, or taken for another record *)
Lemma pow6 n i m : 256 ^ Z.of_nat n <= 58 ^ Z.of_nat m -> (m <= i)%nat -> 256 ^ Z.of_nat n <= 58 ^ Z.of_nat i.
Proof. intros H L. eapply Z.le_trans; [exact H|]. apply Z.pow_le_mono_r; lia. Qed.
Lemma be_pos b l : b <> x00 -> 0 < be_value (b :: l).
Proof.
  intros N. rewrite be_value_be2z, be2z_cons. pose proof (be2z_bound l).
  assert (0 < b2z b). { destruct (Z.eq_dec (b2z b) 0) as [E|]; [|pose proof (b2z_range b); lia]. exfalso. apply N. destruct b; try discriminate E; reflexivity. }
  assert (0 < 256 ^ zlen l) by (apply Z.pow_pos_nonneg; unfold zlen; lia). nia.
Qed.
Lemma decrypt_record P self network w a s pw detail r : prims_ok P -> session self network w a ->
  decrypt P self s pw network detail = Ok r ->
  exists b ck, base58_reads s (b ++ ck) /\ List.length b = 39%nat /\ List.length ck = 4%nat /\ be_value b <> 0.
Proof.
  intros HP HS E. destruct (session_net_sel _ _ _ _ HS) as (n & N).
  destruct (decrypt_inv P _ _ _ _ _ _ _ _ _ HP N E) as (p & f & ah & e1 & e2 & ck & c & k & seed & lot & sq & pwb & D & Lp & La & L1 & L2 & Lc & K & A & V & U & H & M).
  exists (p ++ [f] ++ ah ++ e1 ++ e2), ck. split; [apply reads_code; rewrite D, <- !app_assoc; reflexivity|].
  split; [rewrite !app_length, Lp, La, L1, L2; reflexivity|]. split; [exact Lc|].
  destruct M as [(-> & _)|(-> & _)]; cbn [app]; apply Z.neq_sym, Z.lt_neq, be_pos; discriminate.
Qed.
Theorem C104_decrypt : forall P self self' network network' w w' a a' i s s' pw pw' detail detail' r r', prims_ok P ->
  session self network w a -> session self' network' w' a' -> over bitcoin_alphabet s -> typo i s s' -> (6 <= i)%nat ->
  decrypt P self s pw network detail = Ok r -> decrypt P self' s' pw' network' detail' = Ok r' ->
  exists record c record' c', base58_reads s (record ++ c) /\ base58_reads s' (record' ++ c') /\
    List.length record = 39%nat /\ List.length record' = 39%nat /\ List.length c = 4%nat /\ List.length c' = 4%nat /\ record <> record'.
Proof.
  intros P self self' network network' w w' a a' i s s' pw pw' detail detail' r r' HP HS HS' O T Li E E'.
  destruct (decrypt_record _ _ _ _ _ _ _ _ _ HP HS E) as (b & ck & R & Lb & Lc & NZ).
  destruct (decrypt_record _ _ _ _ _ _ _ _ _ HP HS' E') as (b' & ck' & R' & Lb' & Lc' & NZ').
  exists b, ck, b', ck'. split; [exact R|]. split; [exact R'|]. do 4 (split; [assumption|]). intros <-.
  apply NZ. apply (typo_far i 4 s s' b ck ck' O T); try assumption. apply (pow6 4 i 6); [vm_compute; discriminate|exact Li].
Qed.
(** Without EC multiplication, the same passphrase never opens both for the same key *)
Lemma plain_opened P self network w a s rest pw detail r : prims_ok P -> session self network w a ->
  base58_reads s ([x01; x42] ++ rest) -> decrypt P self s pw network detail = Ok r ->
  exists c h1 h2 ck pwb address d,
    let k := plain_unmask P pwb (address_hash P address) h1 h2 in
    rest = [plain_flag c] ++ address_hash P address ++ h1 ++ h2 ++ ck /\ List.length h1 = 16%nat /\ List.length h2 = 16%nat /\ List.length ck = 4%nat /\
    List.length (address_hash P address) = 4%nat /\
    passphrase_bytes P pw pwb /\ key_address P a c k address /\ describes P w a c k d /\
    r = (if detail then DDetail d else DWif (d_wif d)).
Proof.
  intros HP HS R E. destruct (session_net_sel _ _ _ _ HS) as (n & N).
  destruct (decrypt_inv P _ _ _ _ _ _ _ _ _ HP N E) as (p & f & ah & e1 & e2 & ck & c & k & seed & lot & sq & pwb & D & Lp & La & L1 & L2 & Lc & K & A & V & U & H & M).
  apply reads_code in R. rewrite D in R. apply Ok_inj in R. apply app_split in R; [|exact Lp]. destruct R as [-> <-].
  destruct M as [(_ & -> & _)|(B & _)]; [|discriminate B].
  destruct (C50_plain_outcome P self network w a c ah e1 e2 ck s pw pwb detail HP HS (proj2 (reads_code _ _) D) La L1 L2 Lc U) as (O1 & O2 & O3).
  cbv zeta in O1, O2, O3. remember (plain_unmask P pwb ah e1 e2) as kk eqn:EKK.
  assert (0 <= be_value kk) by apply be_bound.
  destruct (Z.le_gt_cases 1 (be_value kk)) as [G1|G1]; [|rewrite (O1 ltac:(lia)) in E; discriminate E].
  destruct (Z.le_gt_cases secp_n (be_value kk)) as [G2|G2]; [rewrite (O1 ltac:(lia)) in E; discriminate E|].
  destruct (Byte.byte_eq_dec (first_byte kk) x00) as [F|F]; [rewrite (O2 ltac:(lia) F) in E; discriminate E|].
  destruct (O3 ltac:(lia) F) as (address & KA & X & Y).
  destruct (list_eq_dec Byte.byte_eq_dec (address_hash P address) ah) as [Q|Q]; [|rewrite (X Q) in E; discriminate E].
  destruct (Y Q) as (d & DD & _ & _ & _ & EE). rewrite EE in E. apply Ok_inj in E.
  exists c, e1, e2, ck, pwb, address, d. cbv zeta. rewrite Q, <- EKK.
  repeat (split; [first [reflexivity|assumption]|]). symmetry. exact E.
Qed.
Theorem C104_decrypt_plain : forall P self network w a i s s' rest rest' pw detail r r', prims_ok P ->
  session self network w a -> over bitcoin_alphabet s -> typo i s s' -> (6 <= i)%nat ->
  base58_reads s ([x01; x42] ++ rest) -> base58_reads s' ([x01; x42] ++ rest') ->
  decrypt P self s pw network detail = Ok r -> decrypt P self s' pw network detail = Ok r' -> r <> r'.
Proof.
  intros P self network w a i s s' rest rest' pw detail r r' HP HS O T Li R R' E E' Err.
  destruct (session_net_sel _ _ _ _ HS) as (n & N). pose proof (ns_w _ _ _ _ _ N) as Hw. pose proof (ns_a _ _ _ _ _ N) as Ha.
  destruct (plain_opened _ _ _ _ _ _ _ _ _ _ HP HS R E) as (c & h1 & h2 & ck & pwb & address & d & -> & L1 & L2 & Lc & La & U & KA & DD & ->).
  destruct (plain_opened _ _ _ _ _ _ _ _ _ _ HP HS R' E') as (c' & h1' & h2' & ck' & pwb' & address' & d' & -> & L1' & L2' & Lc' & La' & U' & KA' & DD' & ->).
  unfold passphrase_bytes in U, U'. rewrite U in U'. apply Ok_inj in U'. subst pwb'.
  assert (EW : d_wif d = d_wif d') by (destruct detail; congruence).
  destruct DD as (W & _), DD' as (W' & _). rewrite <- EW in W'.
  set (ah := address_hash P address) in *. set (ah' := address_hash P address') in *.
  assert (Lk : List.length (plain_unmask P pwb ah h1 h2) = 32%nat) by (apply key_address_iff in KA; [apply key_okb_range, KA|exact Ha]).
  assert (Lk' : List.length (plain_unmask P pwb ah' h1' h2') = 32%nat) by (apply key_address_iff in KA'; [apply key_okb_range, KA'|exact Ha]).
  apply wif_text_unique in W. apply wif_text_unique in W'. rewrite W in W'. apply wif_of_inj in W'; trivial.
  destruct W' as [<- EK]. rewrite <- EK in KA'. 
  assert (EA : address = address').
  { apply key_address_iff in KA; [|exact Ha]. apply key_address_iff in KA'; [|exact Ha]. destruct KA as [_ EA1], KA' as [_ EA2]. congruence. }
  assert (EAH : ah' = ah) by (unfold ah, ah'; rewrite EA; reflexivity). rewrite EAH in EK, R', La'. unfold plain_unmask in EK. cbv zeta in EK.
  destruct (kdf_parts P HP pwb ah) as (K1 & K2 & _). change (kdf P pwb ah) with (strong_kdf P pwb ah) in *.
  set (S := strong_kdf P pwb ah) in *. clearbody S.
  assert (LD : forall x y, List.length x = 16%nat -> List.length y = 16%nat ->
    List.length (h_aes_dec P (slice 32 64 S) x ++ h_aes_dec P (slice 32 64 S) y) = List.length (slice 0 32 S)).
  { intros x y Lx Ly. rewrite app_length, !(aes_dec_len P HP), K1 by assumption. reflexivity. }
  apply (f_equal (fun x => xor x (slice 0 32 S))) in EK. rewrite !xor_cancel in EK by (apply LD; assumption).
  apply app_split in EK; [|rewrite !(aes_dec_len P HP) by assumption; reflexivity]. destruct EK as [Q1 Q2].
  apply (f_equal (h_aes_enc P (slice 32 64 S))) in Q1, Q2. rewrite !aes_enc_dec in Q1, Q2 by assumption. subst h1' h2'.
  assert (Z0 : be_value ([x01; x42] ++ [plain_flag c] ++ ah ++ h1 ++ h2) = 0).
  { apply (typo_far i 4 s s' _ ck ck' O T); try assumption; [apply (pow6 4 i 6); [vm_compute; discriminate|exact Li]| |]; rewrite <- !app_assoc; assumption. }
  pose proof (be_pos x01 (x42 :: [plain_flag c] ++ ah ++ h1 ++ h2) ltac:(discriminate)) as Z1. cbn [app] in Z0, Z1. lia.
Qed.

(** ** A misprint in the last characters changes the checksum only, and is not noticed *)
Lemma head_digit b s : base58_text b s -> first_byte b <> x00 -> exists x t, s = x :: t /\ digit_of bitcoin_alphabet x <> 0.
Proof.
  intros (k & body & ds & -> & S & (F & C) & V & ->) N. destruct k as [|k]; [|destruct N; reflexivity].
  cbn [repeat app] in *. destruct ds as [|d ds].
  - cbn [digits_value] in V. destruct body as [|x body]; [destruct N; reflexivity|]. pose proof (be_pos x body N). lia.
  - exists (letter bitcoin_alphabet d), (List.map (letter bitcoin_alphabet) ds). split; [reflexivity|].
    inversion F as [|? ? Hd _]; subst. rewrite (digit_of_digit bitcoin_alphabet bitcoin_ok).
    + rewrite (digit_letter bitcoin_alphabet bitcoin_ok) by exact Hd. exact C.
    + pose proof (over_ascii bitcoin_alphabet bitcoin_ok [letter bitcoin_alphabet d]) as OA.
      assert (O : over bitcoin_alphabet [letter bitcoin_alphabet d]) by (constructor; [apply letter_in, Hd|constructor]).
      apply OA in O. inversion O; assumption.
Qed.
Lemma reads_text s d : over bitcoin_alphabet s -> base58_reads s d -> base58_text d s.
Proof.
  intros O R. destruct (over_text bitcoin_alphabet bitcoin_ok s O) as (d' & T). apply reads58 in R.
  rewrite (decode_text bitcoin_alphabet bitcoin_ok d' s T) in R. apply Ok_inj in R. subst d'. exact T.
Qed.
Lemma reread i u c c' v b ck :
  over bitcoin_alphabet (u ++ c :: v) -> over bitcoin_alphabet (u ++ c' :: v) -> List.length v = i ->
  base58_reads (u ++ c :: v) (b ++ ck) -> first_byte b <> x00 -> List.length ck = 4%nat ->
  let shift := (digit_of bitcoin_alphabet c' - digit_of bitcoin_alphabet c) * 58 ^ Z.of_nat i in
  0 <= be_value ck + shift < 256 ^ 4 ->
  base58_text (b ++ z2be 4 (be_value ck + shift)) (u ++ c' :: v).
Proof.
  intros O O' <- R N Lc shift B. pose proof (reads_text _ _ O R) as T. destruct b as [|b0 b]; [destruct N; reflexivity|]. cbn [first_byte] in N.
  destruct (head_digit _ _ T ltac:(exact N)) as (x & t & Ex & Dx).
  set (ck' := z2be 4 (be_value ck + shift)).
  assert (Vc : be_value ck' = be_value ck + shift) by (rewrite be_value_be2z; unfold ck'; apply z2be_small_be2z; exact B).
  assert (Lc' : List.length ck' = 4%nat) by apply z2be_length. clearbody ck'.
  pose proof (read_value _ _ R) as V. pose proof (value_nonneg _ O) as VN. pose proof (value_nonneg _ O') as VN'.
  assert (VV : value_of (u ++ c' :: v) = be_value ((b0 :: b) ++ ck')).
  { rewrite be_app in *. unfold zlen. rewrite Lc', Vc. unfold zlen in V. rewrite Lc in V.
    rewrite Z.max_r in V by lia. rewrite value_app, value_cons in *. change (zlen (c' :: v)) with (zlen (c :: v)). unfold shift, zlen in *. lia. }
  destruct (over_text bitcoin_alphabet bitcoin_ok _ O') as (d' & T'). pose proof T' as TT. destruct TT as (k & body & ds & Ed & S & C & Vd & Es).
  assert (R' : base58_reads (u ++ c' :: v) d') by (apply reads58, (decode_text bitcoin_alphabet bitcoin_ok), T').
  assert (EB : body = (b0 :: b) ++ ck').
  { apply stripped_unique; [exact S| |].
    - cbn [app strip_zeros]. destruct (Byte.eqb b0 x00) eqn:Q; [apply byte_eqb_spec in Q; contradiction|reflexivity].
    - rewrite <- !be_value_be2z, <- VV. apply read_value in R'. rewrite Ed, be_value_be2z, be2z_zeros, <- be_value_be2z in R'. lia. }
  destruct k as [|k]; [cbn [repeat app] in Ed; subst d' body; exact T'|exfalso].
  change (letter bitcoin_alphabet 0) with 49%N in Es. cbn [repeat app] in Es.
  assert (D1 : digit_of bitcoin_alphabet 49%N = 0) by reflexivity.
  destruct u as [|y u].
  - cbn [app] in *. injection Ex as <- <-. injection Es as -> _.
    assert (V1 : value_of (49%N :: v) < 58 ^ zlen v).
    { rewrite value_cons, D1. inversion O'; subst. pose proof (value_nonneg v ltac:(assumption)). lia. }
    rewrite VV, app_comm_cons, be_app in V1. unfold zlen in V1 at 1. rewrite Lc' in V1. pose proof (be_pos b0 b N). pose proof (be_bound ck') as Bc'. pose proof (be_bound ck) as Bc.
    unfold zlen in *. rewrite Lc in Bc. unfold shift in B. rewrite D1 in B. inversion O as [|? ? Ic _]; subst. pose proof (digit_range c Ic).
    set (K := 58 ^ Z.of_nat (List.length v)) in *. change (256 ^ Z.of_nat 4) with (256 ^ 4) in *.
    assert (K <= digit_of bitcoin_alphabet c * K) by nia. nia.
  - cbn [app] in *. injection Ex as <- _. injection Es as -> _. apply Dx, D1.
Qed.
Theorem C104_unnoticed_decrypt : forall P self network u c c' v s s' record ck pw detail, prims_ok P -> constructed self ->
  s = u ++ c :: v -> s' = u ++ c' :: v -> over bitcoin_alphabet s -> over bitcoin_alphabet s' ->
  base58_reads s (record ++ ck) -> List.length record = 39%nat -> List.length ck = 4%nat -> first_byte record <> x00 ->
  0 <= be_value ck + (digit_of bitcoin_alphabet c' - digit_of bitcoin_alphabet c) * 58 ^ Z.of_nat (List.length v) < 256 ^ 4 ->
  decrypt P self s' pw network detail = decrypt P self s pw network detail.
Proof.
  intros P self network u c c' v s s' record ck pw detail HP HC -> -> O O' R Lr Lc N B.
  apply (C19_any_checksum P self network record _ ck _ _ pw detail HP HC Lr (z2be_length 4 _) Lc
    (reread _ u c c' v record ck O O' eq_refl R N Lc B)). apply reads_text; assumption.
Qed.
Lemma last_character s b ck : over bitcoin_alphabet s -> base58_reads s (b ++ ck) -> first_byte b <> x00 -> List.length ck = 4%nat ->
  0 < be_value ck < 256 ^ 4 - 1 ->
  exists u c c', s = u ++ [c] /\ c <> c' /\ over bitcoin_alphabet (u ++ [c']) /\
    0 <= be_value ck + (digit_of bitcoin_alphabet c' - digit_of bitcoin_alphabet c) * 58 ^ Z.of_nat (List.length (@nil N)) < 256 ^ 4.
Proof.
  intros O R N Lc B. destruct (head_digit _ _ (reads_text _ _ O R)) as (x & t & Es & _); [destruct b; [destruct N; reflexivity|exact N]|].
  destruct (exists_last (l := s) ltac:(rewrite Es; discriminate)) as (u & c & ->). exists u, c.
  apply over_cut in O. destruct O as [Ou Oc]. inversion Oc as [|? ? Ic _]; subst. pose proof (digit_range c Ic) as D.
  set (q := digit_of bitcoin_alphabet c) in *.
  assert (X : forall q', 0 <= q' < 58 -> In (letter bitcoin_alphabet q') bitcoin_alphabet /\ digit_of bitcoin_alphabet (letter bitcoin_alphabet q') = q').
  { intros q' H. assert (I : In (letter bitcoin_alphabet q') bitcoin_alphabet) by (apply letter_in, H). split; [exact I|].
    rewrite (digit_of_digit bitcoin_alphabet bitcoin_ok); [apply (digit_letter bitcoin_alphabet bitcoin_ok), H|].
    pose proof (over_ascii bitcoin_alphabet bitcoin_ok [letter bitcoin_alphabet q']) as OA.
    assert (O1 : over bitcoin_alphabet [letter bitcoin_alphabet q']) by (constructor; [exact I|constructor]). apply OA in O1. inversion O1; assumption. }
  cbn [List.length]. change (58 ^ Z.of_nat 0) with 1.
  destruct (Z.eq_dec q 0) as [Q|Q].
  - exists (letter bitcoin_alphabet 1). destruct (X 1 ltac:(lia)) as [I E]. rewrite E. split; [reflexivity|].
    split; [intros C; rewrite <- C in E; fold q in E; lia|]. split; [apply Forall_app; split; [exact Ou|constructor; [exact I|constructor]]|lia].
  - exists (letter bitcoin_alphabet (q - 1)). destruct (X (q - 1) ltac:(lia)) as [I E]. rewrite E. split; [reflexivity|].
    split; [intros C; rewrite <- C in E; fold q in E; lia|]. split; [apply Forall_app; split; [exact Ou|constructor; [exact I|constructor]]|lia].
Qed.
Theorem C104_last_character_decrypt : forall P s record ck, prims_ok P -> over bitcoin_alphabet s ->
  base58_reads s (record ++ ck) -> List.length record = 39%nat -> List.length ck = 4%nat -> first_byte record <> x00 ->
  ck <> [x00; x00; x00; x00] -> ck <> [xff; xff; xff; xff] ->
  exists s', mistyped 0 s s' /\ over bitcoin_alphabet s' /\
    forall self network pw detail, constructed self -> decrypt P self s' pw network detail = decrypt P self s pw network detail.
Proof.
  intros P s record ck HP O R Lr Lc N N0 N1.
  assert (B : 0 < be_value ck < 256 ^ 4 - 1).
  { pose proof (be_bound ck) as B. unfold zlen in B. rewrite Lc in B. change (256 ^ Z.of_nat 4) with (256 ^ 4) in B.
    assert (be_value ck <> 0) by (intros E; apply N0, be2z_inj; [exact Lc|rewrite <- be_value_be2z, E; reflexivity]).
    assert (be_value ck <> 256 ^ 4 - 1) by (intros E; apply N1, be2z_inj; [exact Lc|rewrite <- be_value_be2z, E; reflexivity]). lia. }
  destruct (last_character s record ck O R N Lc B) as (u & c & c' & Es & D & O' & Sh). exists (u ++ [c']).
  split; [exists u, c, c', []; auto|]. split; [exact O'|]. intros self network pw detail HC.
  apply (C104_unnoticed_decrypt P self network u c c' [] s _ record ck pw detail HP HC); auto.
Qed.

(** ** WIFs: the same *)
Theorem C104_decode_wif : forall i s s' w k c ck k' t' ck', 0 <= w -> over bitcoin_alphabet s -> typo i s s' ->
  decode_wif s w = Ok (k, wif_name c, ck) -> decode_wif s' w = Ok (k', t', ck') ->
  be_value k <> 0 -> ((if c then 7 else 6) <= i)%nat -> (k', t') <> (k, wif_name c).
Proof.
  intros i s s' w k c0 ck k' t' ck' Hw O T E E' NZ Li Q. injection Q as -> ->.
  apply (C09_decode_wif_exact _ _ _ _ _ Hw) in E, E'.
  destruct E as (raw & c & R & Et & (p & m & Mp & Lk & Lc & Lm & ->)), E' as (raw' & c' & R' & Et' & (p' & m' & Mp' & _ & Lc' & Lm' & ->)).
  assert (c = c0) by (destruct c, c0; trivial; discriminate Et). assert (c' = c0) by (destruct c', c0; trivial; discriminate Et'). subst c c'. clear Et Et'. rename c0 into c.
  assert (p' = p) by (rewrite (minimal_unique _ _ Mp), (minimal_unique _ _ Mp'); reflexivity). subst p'.
  assert (Z0 : be_value (p ++ k) = 0).
  { apply (typo_far i (if c then 5 else 4) s s' _ (m ++ ck) (m' ++ ck') O T).
    - destruct c; cbn -[Z.pow] in Li; [apply (pow6 5 i 7)|apply (pow6 4 i 6)]; first [exact Li|vm_compute; discriminate].
    - rewrite app_length, Lm, Lc. destruct c; reflexivity.
    - rewrite app_length, Lm', Lc'. destruct c; reflexivity.
    - rewrite <- app_assoc. exact R.
    - rewrite <- app_assoc. exact R'. }
  rewrite be_app in Z0. pose proof (be_bound p). pose proof (be_bound k). assert (0 < 256 ^ zlen k) by (apply Z.pow_pos_nonneg; unfold zlen; lia). nia.
Qed.
Theorem C104_last_character_wif : forall s w k t ck, 1 <= w -> over bitcoin_alphabet s -> decode_wif s w = Ok (k, t, ck) ->
  ck <> [x00; x00; x00; x00] -> ck <> [xff; xff; xff; xff] ->
  exists s' ck', mistyped 0 s s' /\ over bitcoin_alphabet s' /\ decode_wif s' w = Ok (k, t, ck').
Proof.
  intros s w k t ck Hw O E N0 N1. assert (Hw0 : 0 <= w) by lia. apply (C09_decode_wif_exact _ _ _ _ _ Hw0) in E.
  destruct E as (raw & cp & R & -> & (p & m & Mp & Lk & Lc & Lm & ->)).
  assert (N : first_byte (p ++ k ++ m) <> x00).
  { destruct (minimal_first w p Hw Mp) as (F & Np & _). destruct p; [congruence|exact F]. }
  assert (B : 0 < be_value ck < 256 ^ 4 - 1).
  { pose proof (be_bound ck) as B. unfold zlen in B. rewrite Lc in B. change (256 ^ Z.of_nat 4) with (256 ^ 4) in B.
    assert (be_value ck <> 0) by (intros E; apply N0, be2z_inj; [exact Lc|rewrite <- be_value_be2z, E; reflexivity]).
    assert (be_value ck <> 256 ^ 4 - 1) by (intros E; apply N1, be2z_inj; [exact Lc|rewrite <- be_value_be2z, E; reflexivity]). lia. }
  assert (R1 : base58_reads s ((p ++ k ++ m) ++ ck)) by (rewrite <- !app_assoc; exact R).
  destruct (last_character s _ ck O R1 N Lc B) as (u & c & c' & -> & D & O' & Sh). exists (u ++ [c']).
  eexists. split; [exists u, c, c', []; auto|]. split; [exact O'|].
  pose proof (reread 0 u c c' [] _ ck O O' eq_refl R1 N Lc Sh) as T'. rewrite <- !app_assoc in T'.
  replace cp with (Nat.eqb (List.length m) 1) by (rewrite Lm; destruct cp; reflexivity).
  apply (C10_any_checksum _ w k m _ p Mp Lk ltac:(rewrite Lm; destruct cp; lia) (z2be_length 4 _) T').
Qed.
