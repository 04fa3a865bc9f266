(** * C79: length and first characters of WIFs and addresses (wif.py, p2pkh_address.py,
    cryptocurrencies.py) *)
From Coq Require Import Lia ZifyBool ZifyNat ZifyN.
From Verif Require Import Py Prims Const Spec PyFacts Utils UtilsFacts Base58 Base58Facts
  Curve SpecCurve Secp256k1 SecpFacts Cryptocurrencies P2PKHAddress Wif Bip38 SpecBip38 SpecRecords SpecSession
  CodecFacts CodecFacts2 Bip38Facts Bip38Facts2 Sessions RecordFacts ECFacts Toy PropCodec PropEncrypt PropIntermediate PropDecrypt PropCreate PropSession SpecLetters.

(** All numbers from p * 256^r have n digits in base 58, the first of them one of [letters]. *)
Definition looks_ok (p r n : Z) (letters : string) : bool :=
  let lo := p * 256 ^ r in let hi := (p + 1) * 256 ^ r - 1 in let m := 58 ^ (n - 1) in
  (m <=? lo) && (hi <? 58 * m) && (1 <=? n) &&
  forallb (fun i => existsb (N.eqb (letter bitcoin_alphabet (lo / m + Z.of_nat i))) (str letters)) (seq 0 (S (Z.to_nat (hi / m - lo / m)))).
Lemma one_digit q : digits_value 58 [q] = q.
Proof. cbn [digits_value List.length]. change (58 ^ Z.of_nat 0) with 1. lia. Qed.
Lemma looks_ok_text p r n letters l s : looks_ok (be2z p) r n letters = true -> first_byte (p ++ l) <> x00 -> zlen l = r ->
  base58_text (p ++ l) s -> looks_like s n letters.
Proof.
  unfold looks_ok. cbv zeta. rewrite !andb_true_iff, !Z.leb_le, Z.ltb_lt. intros [[[H1 H2] H3] H4] F Lr T. subst r.
  set (lo := be2z p * 256 ^ zlen l) in *. set (hi := (be2z p + 1) * 256 ^ zlen l - 1) in *. set (m := 58 ^ (n - 1)) in *.
  assert (B : lo <= be2z (p ++ l) <= hi) by apply be2z_prefix_bounds.
  assert (E58 : 58 ^ (n - 1 + 1) = 58 * m) by (unfold m; rewrite Z.pow_add_r by lia; lia).
  assert (Hm : 0 < m) by (apply Z.pow_pos_nonneg; lia).
  assert (L : zlen s = n) by (replace n with (n - 1 + 1) by lia; apply (digits58_length (p ++ l) s (n - 1) lo hi); trivial; lia).
  split; [exact L|].
  set (q := be2z (p ++ l) / m).
  assert (Q1 : lo / m <= q) by (apply Z.div_le_mono; lia). assert (Q2 : q <= hi / m) by (apply Z.div_le_mono; lia).
  assert (Q3 : 0 <= q < 58) by (split; [apply Z.div_pos; [pose proof (be2z_bound (p ++ l)); lia|lia]|apply Z.div_lt_upper_bound; lia]).
  destruct (digits58_prefix (p ++ l) s (n - 1) (be2z (p ++ l)) (be2z (p ++ l)) [q]) as [_ (t & E)]; trivial; try lia.
  - cbn; lia.
  - constructor; [exact Q3|constructor].
  - change (zlen [q]) with 1. replace (n - 1 + 1 - 1) with (n - 1) by lia. fold m. fold q. symmetry. apply one_digit.
  - change (zlen [q]) with 1. replace (n - 1 + 1 - 1) with (n - 1) by lia. fold m. fold q. symmetry. apply one_digit.
  - exists (letter bitcoin_alphabet q), t. split; [|exact E].
    rewrite forallb_forall in H4. specialize (H4 (Z.to_nat (q - lo / m))).
    assert (I : In (Z.to_nat (q - lo / m)) (seq 0 (S (Z.to_nat (hi / m - lo / m))))) by (apply in_seq; lia).
    apply H4 in I. replace (lo / m + Z.of_nat (Z.to_nat (q - lo / m))) with q in I by lia.
    apply existsb_exists in I. destruct I as (c & Hc & Ec). apply N.eqb_eq in Ec. rewrite Ec. exact Hc.
Qed.
Lemma wif_looks_ok : forallb (fun e => let '(w, ((n, l), (n', l'))) := e in looks_ok w 36 n l && looks_ok w 37 n' l' && (1 <=? w) && (w <=? 255)) wif_looks = true.
Proof. vm_compute. reflexivity. Qed.
Lemma address_looks_ok : forallb (fun e => let '(a, (n, l)) := e in looks_ok a 24 n l && (1 <=? a)) address_looks = true.
Proof. vm_compute. reflexivity. Qed.
Lemma tables_cover : forallb (fun c => forallb (fun e => let '(_, (w, a)) := e in
  existsb (fun r => fst r =? w) wif_looks && ((a =? 0) || existsb (fun r => fst r =? a) address_looks)) (c_networks c)) all_coins = true.
Proof. vm_compute. reflexivity. Qed.

Lemma minimal_first z l : 1 <= z -> minimal_bytes z l -> first_byte l <> x00 /\ l <> [] /\ be2z l = z.
Proof.
  intros Hz [V M]. rewrite be_value_be2z in V. destruct l as [|b r]; [cbn in V; lia|]. split; [|split; [discriminate|exact V]].
  cbn [first_byte]. intros ->. destruct r as [|y r]; [cbn in V; lia|].
  pose proof (shortest_length_lt (x00 :: y :: r)) as X. cbn [first_byte List.length] in X. rewrite M in X. cbn [List.length] in X.
  specialize (X ltac:(lia) eq_refl). lia.
Qed.
Lemma wif_text_looks P w c k s u v : prims_ok P -> List.length k = 32%nat -> wif_text P w c k s -> In (w, (u, v)) wif_looks ->
  looks_like s (fst (if c then v else u)) (snd (if c then v else u)).
Proof.
  intros HP Lk (p & M & T) I. pose proof wif_looks_ok as H. rewrite forallb_forall in H. specialize (H _ I). destruct u as [n l], v as [n' l'].
  rewrite !andb_true_iff, !Z.leb_le in H. destruct H as [[[H1 H2] H3] H4]. destruct (minimal_first w p H3 M) as (F & NE & V).
  unfold base58check_text in T. set (ck := checksum4 P _) in T. assert (Lc : List.length ck = 4%nat) by apply checksum4_length, HP. clearbody ck.
  rewrite <- app_assoc in T. 
  apply (looks_ok_text p (if c then 37 else 36) _ _ ((k ++ (if c then [x01] else [])) ++ ck)).
  - rewrite V. destruct c; assumption.
  - destruct p; [congruence|exact F].
  - unfold zlen. rewrite !app_length, Lk, Lc. destruct c; reflexivity.
  - exact T.
Qed.
Lemma address_text_looks P a c x y s n l : prims_ok P -> address_text P bitcoin_alphabet a c x y s -> In (a, (n, l)) address_looks -> looks_like s n l.
Proof.
  intros HP (p & sr & M & _ & T) I. pose proof address_looks_ok as H. rewrite forallb_forall in H. specialize (H _ I).
  rewrite !andb_true_iff, !Z.leb_le in H. destruct H as [H1 H2]. destruct (minimal_first a p H2 M) as (F & NE & V).
  unfold base58check_text in T. set (ck := checksum4 P _) in T. assert (Lc : List.length ck = 4%nat) by apply checksum4_length, HP. clearbody ck.
  rewrite <- app_assoc in T. assert (Lh : List.length (sha_ripemd P sr) = 20%nat) by apply ripemd_length, HP.
  apply (looks_ok_text p 24 _ _ (sha_ripemd P sr ++ ck)).
  - rewrite V. exact H1.
  - destruct p; [congruence|exact F].
  - unfold zlen. rewrite !app_length, Lh, Lc. reflexivity.
  - exact T.
Qed.
(** Prefix 0: every zero byte at the front is a "1" *)
Lemma zero_first_text d s : List.length d = 24%nat -> base58_text (x00 :: d) s -> 25 <= zlen s <= 34 /\ exists rest, s = str "1" ++ rest.
Proof.
  intros Ld (k & body & ds & E & St & C & V & ->). change (zlen bitcoin_alphabet) with 58 in *. rewrite be_value_be2z in V.
  destruct k as [|k].
  { exfalso. cbn [repeat app] in E. subst body. destruct (strip_zeros (x00 :: d)) as [|b r] eqn:S; [discriminate St|].
    pose proof (strip_zeros_first _ _ _ S) as N. congruence. }
  split; [|exists (repeat (letter bitcoin_alphabet 0) k ++ List.map (letter bitcoin_alphabet) ds); reflexivity].
  assert (LE : (S k + List.length body = 25)%nat) by (apply (f_equal (@List.length byte)) in E; cbn [List.length] in E; rewrite app_length, repeat_length in E; lia).
  unfold zlen. rewrite app_length, repeat_length, map_length.
  pose proof (digits_value_bound 58 ds ltac:(lia) (proj1 C)) as Bd. pose proof (be2z_bound body) as Bb. rewrite V in Bd.
  destruct body as [|b r].
  - assert (ds = []) as ->. { destruct ds as [|x ds]; [reflexivity|exfalso]. destruct C as [Fd N]. inversion Fd; subst. cbn in V.
      pose proof (digits_value_bound 58 ds ltac:(lia) ltac:(assumption)). assert (0 < 58 ^ Z.of_nat (List.length ds)) by (apply Z.pow_pos_nonneg; lia).
      change (be2z []) with 0 in V. nia. }
    cbn [List.length] in *. lia.
  - assert (N : b <> x00). { apply (strip_zeros_first (b :: r) b r). exact St. }
    assert (B1 : 1 <= b2z b) by (pose proof (b2z_range b); pose proof (proj1 (b2z_0 b)) as Z0; destruct (Z.eq_dec (b2z b) 0) as [e|]; [destruct N; apply b2z_0, e|lia]).
    rewrite be2z_cons in *. pose proof (be2z_bound r) as Br. cbn [List.length] in LE. 
    assert (Lo : 256 ^ zlen r <= b2z b * 256 ^ zlen r + be2z r) by nia.
    assert (H1 : (List.length (b :: r) <= List.length ds)%nat).
    { destruct (le_lt_dec (List.length (b :: r)) (List.length ds)) as [|G]; [assumption|exfalso]. cbn [List.length] in G.
      assert (58 ^ zlen ds <= 58 ^ zlen r) by (apply Z.pow_le_mono_r; unfold zlen; lia).
      assert (58 ^ zlen r <= 256 ^ zlen r) by (apply Z.pow_le_mono_l; lia). unfold zlen in *. lia. }
    cbn [List.length] in H1. split; [lia|].
    destruct (le_lt_dec (List.length ds) (9 + S (List.length r))) as [|G]; [lia|exfalso].
    destruct ds as [|x ds]; [cbn in G; lia|]. pose proof (canonical_lower 58 x ds ltac:(lia) C) as CL. cbn [List.length] in G.
    assert (P1 : 58 ^ (10 + zlen r) <= 58 ^ zlen ds) by (apply Z.pow_le_mono_r; unfold zlen; lia).
    assert (P2 : 256 ^ (1 + zlen r) * 256 ^ (23 - zlen r) = 256 ^ 24) by (rewrite <- Z.pow_add_r by (unfold zlen; lia); f_equal; lia).
    assert (P3 : 58 ^ (10 + zlen r) * 58 ^ (23 - zlen r) = 58 ^ 33) by (rewrite <- Z.pow_add_r by (unfold zlen; lia); f_equal; lia).
    assert (P4 : 58 ^ (23 - zlen r) <= 256 ^ (23 - zlen r)) by (apply Z.pow_le_mono_l; lia).
    assert (P5 : 256 ^ 24 <= 58 ^ 33) by (vm_compute; discriminate).
    assert (P6 : 0 < 58 ^ (23 - zlen r)) by (apply Z.pow_pos_nonneg; unfold zlen; lia).
    assert (P7 : b2z b * 256 ^ zlen r + be2z r < 256 ^ (1 + zlen r)).
    { rewrite Z.pow_add_r by (unfold zlen; lia). pose proof (b2z_range b). change (256 ^ 1) with 256. nia. }
    assert (P8 : 58 ^ (10 + zlen r) < 256 ^ (1 + zlen r)) by lia.
    assert (P9 : 58 ^ (10 + zlen r) * 58 ^ (23 - zlen r) < 256 ^ (1 + zlen r) * 58 ^ (23 - zlen r)) by (apply Z.mul_lt_mono_pos_r; assumption).
    assert (P10 : 256 ^ (1 + zlen r) * 58 ^ (23 - zlen r) <= 256 ^ (1 + zlen r) * 256 ^ (23 - zlen r)) by (apply Z.mul_le_mono_nonneg_l; [apply Z.pow_nonneg; lia|exact P4]).
    lia.
Qed.
Lemma address_text_zero P c x y s : prims_ok P -> address_text P bitcoin_alphabet 0 c x y s -> 25 <= zlen s <= 34 /\ exists rest, s = str "1" ++ rest.
Proof.
  intros HP (p & sr & M & _ & T). rewrite (minimal_unique _ _ M) in T. change (pre 0) with [x00] in T. unfold base58check_text in T.
  set (ck := checksum4 P _) in T. assert (Lc : List.length ck = 4%nat) by apply checksum4_length, HP. clearbody ck.
  assert (Lh : List.length (sha_ripemd P sr) = 20%nat) by apply ripemd_length, HP.
  apply (zero_first_text (sha_ripemd P sr ++ ck)); [|exact T]. rewrite app_length, Lh, Lc. reflexivity.
Qed.

(** ** C79 *)
(** Every network of every coin is in the tables. *)
Theorem C79_tables_cover : forall coin n w a, In coin all_coins -> In (n, (w, a)) (c_networks coin) ->
  (exists u v, In (w, (u, v)) wif_looks) /\ (a <> 0 -> exists l, In (a, l) address_looks).
Proof.
  intros coin n w a Hc I. pose proof tables_cover as H. rewrite forallb_forall in H. specialize (H _ Hc). rewrite forallb_forall in H. specialize (H _ I).
  cbv beta iota in H. rewrite andb_true_iff in H. destruct H as [H1 H2]. split.
  - apply existsb_exists in H1. destruct H1 as ((w' & u & v) & H1 & E). apply Z.eqb_eq in E. cbn in E. subst w'. eauto.
  - intros Ha. apply orb_true_iff in H2. destruct H2 as [H2|H2]; [apply Z.eqb_eq in H2; contradiction|].
    apply existsb_exists in H2. destruct H2 as ((a' & l) & H2 & E). apply Z.eqb_eq in E. cbn in E. subst a'. eauto.
Qed.
Theorem C79_wif : forall P coin n w a arg k compressed s u v, prims_ok P -> In coin all_coins -> In (n, (w, a)) (c_networks coin) ->
  key_argument arg k -> List.length k = 32%nat -> private_key_to_wif P arg (wif_name compressed) coin n = Ok s ->
  In (w, (u, v)) wif_looks -> looks_like s (fst (if compressed then v else u)) (snd (if compressed then v else u)).
Proof.
  intros P coin n w a arg k c s u v HP Hc I A Lk E R. destruct (C39_table coin Hc) as (_ & ND & _).
  destruct (C07_wif_roundtrip P coin n w a arg k c HP (C39_coin_ok coin Hc) (dict_get_nodup n (w, a) _ ND I) A Lk) as (s' & p & E' & T & _).
  rewrite E in E'. apply Ok_inj in E'. subst s'. apply (wif_text_looks P w c k s u v HP Lk T R).
Qed.
Theorem C79_address : forall P arg x y a ty s, prims_ok P -> 0 <= a -> on_curve (Aff x y) -> public_key_argument arg x y ->
  P2PKH_encode P arg (Some a) ty None = Ok s ->
  (forall n letters, In (a, (n, letters)) address_looks -> looks_like s n letters) /\
  (a = 0 -> 25 <= zlen s <= 34 /\ exists rest, s = str "1" ++ rest).
Proof.
  intros P arg x y a ty s HP Ha O A E. apply (C11_encode P arg x y (Some a) ty None s HP O A Ha bitcoin_ok) in E. cbn [default] in E. split.
  - intros n l R. apply (address_text_looks P a _ x y s n l HP E R).
  - intros ->. exact (address_text_zero P _ x y s HP E).
Qed.
(** ... and so do the results of decrypt and create_new_encrypted_wif *)
Theorem C79_decrypt : forall P self network w a s pw d, prims_ok P -> session self network w a ->
  decrypt P self s pw network true = Ok (DDetail d) ->
  (forall u v, In (w, (u, v)) wif_looks -> d_wif_type d = wif_name false /\ looks_like (d_wif d) (fst u) (snd u) \/ d_wif_type d = wif_name true /\ looks_like (d_wif d) (fst v) (snd v)) /\
  (forall n letters, In (a, (n, letters)) address_looks -> looks_like (d_address d) n letters) /\
  (a = 0 -> 25 <= zlen (d_address d) <= 34 /\ exists rest, d_address d = str "1" ++ rest).
Proof.
  intros P self network w a s pw d HP HS E. destruct (C16_decrypt_sound P self network w a s pw d HP HS E) as (raw & k & c & _ & _ & (W & _ & TN & _ & KA & X) & _).
  destruct X as (e & x & y & sr & [[Lk _] _] & _). destruct KA as (e' & x' & y' & _ & _ & T). split; [|split].
  - intros u v R. pose proof (wif_text_looks P w c k _ u v HP Lk W R) as L. destruct c; [right|left]; auto.
  - intros n l R. apply (address_text_looks P a c x' y' _ n l HP T R).
  - intros ->. exact (address_text_zero P c x' y' _ HP T).
Qed.
Theorem C79_create : forall P random self network w a code t arg seed r, prims_ok P -> session self network w a -> argument_bytes random arg seed ->
  create_new_encrypted_wif P random self code t arg network = Ok r ->
  (forall n letters, In (a, (n, letters)) address_looks -> looks_like (n_address r) n letters) /\
  (a = 0 -> 25 <= zlen (n_address r) <= 34 /\ exists rest, n_address r = str "1" ++ rest).
Proof.
  intros P random self network w a code t arg seed r HP HS A E. destruct (C28_output P random self network w a code t arg seed r HP HS A E)
    as (lot & c & ent & pp & px & py & e & x & y & sr & tail & tail' & _ & _ & _ & _ & _ & _ & _ & _ & _ & _ & _ & T & _).
  split; [intros n l R; apply (address_text_looks P a c x y _ n l HP T R)|]. intros ->. exact (address_text_zero P c x y _ HP T).
Qed.
(** Bitcoin *)
Example C79_bitcoin :
  In (0x80, ((51, "5"), (52, "KL")))%string wif_looks /\ In (0xef, ((51, "9"), (52, "c")))%string wif_looks /\ In (0x6f, (34, "mn"))%string address_looks /\
  In (str "mainnet", (0x80, 0)) (c_networks coin_Bitcoin) /\ In (str "testnet", (0xef, 0x6f)) (c_networks coin_Bitcoin).
Proof. cbn. auto 100. Qed.
