(** * C106: texts within texts *)
From Coq Require Import Lia ZifyBool ZifyNat ZifyN.
From Verif Require Import Exceptions ErrorFacts Py Prims Const Spec PyFacts Utils UtilsFacts Base58 Base58Facts Crypto
  Curve SpecCurve CurveFacts Secp256k1 SecpFacts P2PKHAddress Cryptocurrencies Wif Bip38 SpecBip38 SpecRecords SpecReads SpecSession SpecInterop SpecOutcome
  CodecFacts CodecFacts2 ReadFacts Bip38Facts Bip38Facts2 ECFacts Sessions RecordFacts Toy PropBase58 PropAlphabet PropUtils PropCodec PropDecrypt PropIntermediate PropCreate PropEC PropUnique PropInterop PropSession PropLetters PropKinds PropTypo PropSpace.

(** ** What is claimed *)
(** [t] is [s] with something around it (part of a longer text; two texts pasted together;
    and the other way round: [s] is [t] with its ends cut off) *)
Definition within (s t : pystr) : Prop := exists y1 y2, (y1 <> [] \/ y2 <> []) /\ t = (y1 ++ s ++ y2)%list.
(** the codes, and which of them are longer than others *)
Definition codes : list kind := [EncryptedKey; IntermediateCode; ConfirmationCode].
Definition longer_kind (k k' : kind) : Prop :=
  match k, k' with
  | EncryptedKey, (IntermediateCode | ConfirmationCode) | IntermediateCode, ConfirmationCode => True
  | _, _ => False
  end.

(** ** Facts *)
Lemma digit_low c : -1 <= digit_of bitcoin_alphabet c.
Proof. destruct (in_dec N.eq_dec c bitcoin_alphabet) as [I|I]; [pose proof (digit_range c I); lia|rewrite (digit_other c I); lia]. Qed.
Lemma value_bounds : forall s, - (58 ^ zlen s - 1) <= 57 * value_of s /\ value_of s <= 58 ^ zlen s - 1.
Proof.
  induction s as [|c s [IH1 IH2]]; [cbn; lia|]. rewrite value_cons. pose proof (digit_low c). pose proof (digit_small c).
  replace (zlen (c :: s)) with (zlen s + 1) by (unfold zlen; cbn [List.length]; lia). rewrite Z.pow_add_r by (unfold zlen; lia).
  assert (0 < 58 ^ zlen s) by (apply Z.pow_pos_nonneg; unfold zlen; lia). set (K := 58 ^ zlen s) in *. change (58 ^ 1) with 58. nia.
Qed.
Lemma value_first c s : (digit_of bitcoin_alphabet c = -1 -> value_of (c :: s) < 0) /\ (1 <= digit_of bitcoin_alphabet c -> 0 < value_of (c :: s)).
Proof.
  rewrite value_cons. destruct (value_bounds s) as [B1 B2]. assert (0 < 58 ^ zlen s) by (apply Z.pow_pos_nonneg; unfold zlen; lia).
  set (K := 58 ^ zlen s) in *. split; [intros ->; lia|intros D; nia].
Qed.
(** a text that starts with the first letter starts with a zero byte *)
Lemma read_first_letter c s d : digit_of bitcoin_alphabet c = 0 -> base58_reads (c :: s) d -> first_byte d = x00 /\ d <> [].
Proof.
  intros D (_ & b & _ & _ & ->). rewrite (zero_prefix_count_eq bitcoin_alphabet). cbn [List.map zero_prefixes]. cbv zeta. rewrite D.
  change (0 * zlen bitcoin_alphabet + 0 =? 0) with true. cbn iota. cbn [Nat.add repeat app first_byte]. split; [reflexivity|discriminate].
Qed.
(** and one that starts with another letter does not *)
Lemma read_first_other c s d : 1 <= digit_of bitcoin_alphabet c -> base58_reads (c :: s) d -> first_byte d <> x00.
Proof.
  intros D (_ & b & S & Vb & ->). change (zlen bitcoin_alphabet) with 58 in *. fold (value_of (c :: s)) in Vb. destruct (value_first c s) as [_ F]. specialize (F D).
  change 58 with (zlen bitcoin_alphabet). rewrite (zero_prefix_count_eq bitcoin_alphabet). cbn [List.map zero_prefixes]. cbv zeta. rewrite Z.mul_0_l, Z.add_0_l.
  destruct (Z.eqb_spec (digit_of bitcoin_alphabet c) 0) as [Z|_]; [lia|]. cbn [Nat.add]. rewrite count_from.
  - cbn [repeat app]. intros Z. destruct b as [|x b]; [change (be_value []) with 0 in Vb; lia|]. cbn [first_byte] in Z. subst x. cbn [strip_zeros] in S.
    change (Byte.eqb x00 x00) with true in S. cbn iota in S. apply (f_equal (@List.length byte)) in S. pose proof (strip_zeros_length b). cbn in S. lia.
  - intros j L. rewrite map_length in L. rewrite firstn_map. fold (value_of (firstn j s)). pose proof (value_bounds (firstn j s)) as [U _].
    unfold zlen in U. rewrite firstn_length_le in U by lia. assert (0 < 58 ^ Z.of_nat j) by (apply Z.pow_pos_nonneg; lia). nia.
Qed.
Lemma nest_cases s y1 y2 d d' : base58_reads s d -> base58_reads (y1 ++ s ++ y2) d' -> (y1 <> [] \/ y2 <> []) ->
  0 < be_value d -> 0 < be_value d' ->
  2 * be_value d < be_value d' /\ (y1 = [] \/ value_of y1 = 0 \/ 58 ^ zlen s < be_value d') \/ y2 = [] /\ value_of y1 = 0 /\ y1 <> [].
Proof.
  intros R R' NY V V'. pose proof (read_value _ _ R) as E. pose proof (read_value _ _ R') as E'.
  assert (VS : value_of s = be_value d) by lia. assert (VS' : value_of (y1 ++ s ++ y2) = be_value d') by lia. clear E E'.
  assert (C : value_of (y1 ++ s ++ y2) = value_of y1 * (58 ^ zlen s * 58 ^ zlen y2) + (value_of s * 58 ^ zlen y2 + value_of y2)).
  { rewrite !value_app. rewrite <- Z.pow_add_r by (unfold zlen; lia). do 2 f_equal. unfold zlen. rewrite app_length. lia. }
  rewrite VS', VS in C. pose proof (value_bounds s) as [_ Bs]. pose proof (value_bounds y2) as [B2 B2']. rewrite VS in Bs.
  assert (PS : 0 < 58 ^ zlen s) by (apply Z.pow_pos_nonneg; unfold zlen; lia).
  assert (P2 : 0 < 58 ^ zlen y2) by (apply Z.pow_pos_nonneg; unfold zlen; lia).
  destruct (Z.eq_dec (value_of y1) 0) as [Z1|Z1].
  - rewrite Z1, Z.mul_0_l, Z.add_0_l in C. destruct y2 as [|c y2].
    + right. destruct NY as [NY|NY]; [|congruence]. auto.
    + left. split; [|auto]. pose proof (pow58 (c :: y2) ltac:(discriminate)) as [K _]. set (KK := 58 ^ zlen (c :: y2)) in *. clear - C K V B2. nia.
  - left. set (KK := 58 ^ zlen y2) in *. set (SS := 58 ^ zlen s) in *. set (W := value_of y1) in *.
    destruct (Z_lt_le_dec W 0) as [L|L].
    + exfalso. assert (W * (SS * KK) <= -1 * (SS * KK)) by (apply Z.mul_le_mono_nonneg_r; nia). nia.
    + assert (1 * (SS * KK) <= W * (SS * KK)) by (apply Z.mul_le_mono_nonneg_r; nia). split; [nia|]. right. right. nia.
Qed.
(** first letters in front: more zero bytes in front *)
Lemma nest_longer s y1 d d' : value_of y1 = 0 -> y1 <> [] -> base58_reads s d -> base58_reads (y1 ++ s) d' -> 0 < be_value d ->
  (List.length d < List.length d')%nat /\ first_byte d' = x00.
Proof.
  intros Z1 N R R' V. pose proof (read_value _ _ R) as RV. assert (VS : value_of s = be_value d) by lia.
  assert (F : first_byte d' = x00).
  { destruct y1 as [|c y1]; [congruence|]. apply (read_first_letter c (y1 ++ s)); [|exact R'].
    pose proof (digit_low c). destruct (value_first c y1) as [F1 F2]. lia. }
  split; [|exact F]. destruct R as (_ & b & S & Vb & ->), R' as (_ & b' & S' & Vb' & ->). change (zlen bitcoin_alphabet) with 58 in *.
  fold (value_of s) in Vb. fold (value_of (y1 ++ s)) in Vb'. rewrite value_app, Z1, Z.mul_0_l, Z.add_0_l in Vb'.
  assert (b' = b) by (apply stripped_unique; [assumption|assumption|rewrite <- !be_value_be2z; congruence]). subst b'.
  rewrite !app_length, !repeat_length. change 58 with (zlen bitcoin_alphabet). rewrite !(zero_prefix_count_eq bitcoin_alphabet). rewrite map_app, prefixes_app.
  change (zlen bitcoin_alphabet) with 58. rewrite Z.mul_0_l, Z.add_0_l. fold (value_of y1). rewrite Z1.
  destruct y1 as [|c y1]; [congruence|]. pose proof (digit_low c). destruct (value_first c y1) as [F1 F2]. assert (D : digit_of bitcoin_alphabet c = 0) by lia.
  cbn [List.map zero_prefixes]. cbv zeta. rewrite D. change (0 * zlen bitcoin_alphabet + 0 =? 0) with true. cbn iota. lia.
Qed.
Lemma nest_value s y1 y2 d d' : base58_reads s d -> base58_reads (y1 ++ s ++ y2) d' -> (y1 <> [] \/ y2 <> []) ->
  0 < be_value d -> 0 < be_value d' -> first_byte d' <> x00 -> 2 * be_value d < be_value d'.
Proof.
  intros R R' NY V V' N. destruct (nest_cases s y1 y2 d d' R R' NY V V') as [[G _]|(-> & Z1 & N1)]; [exact G|exfalso].
  rewrite app_nil_r in R'. destruct (nest_longer s y1 d d' Z1 N1 R R' V) as [_ F]. contradiction.
Qed.

(** ** Reading: never the same bytes *)
Theorem C106_read : forall s t d d', within s t -> base58_reads s d -> base58_reads t d' -> be_value d <> 0 -> d' <> d.
Proof.
  intros s t d d' (y1 & y2 & NY & ->) R R' N ->. pose proof (be_bound d).
  destruct (nest_cases s y1 y2 d d R R' NY ltac:(lia) ltac:(lia)) as [[G _]|(-> & Z1 & N1)]; [lia|].
  rewrite app_nil_r in R'. destruct (nest_longer s y1 d d Z1 N1 R R' ltac:(lia)) as [L _]. lia.
Qed.
Theorem C106_check_decode : forall P s t d d', prims_ok P -> within s t ->
  check_decode P s bitcoin_alphabet = Ok d -> check_decode P t bitcoin_alphabet = Ok d' -> be_value d <> 0 -> d' <> d.
Proof.
  intros P s t d d' HP W R R' N ->. apply (reads58check P HP) in R, R'. apply (C106_read s t _ _ W R R'); [|reflexivity].
  rewrite be_app. pose proof (be_bound d). pose proof (be_bound (checksum4 P d)). assert (0 < 256 ^ zlen (checksum4 P d)) by (apply Z.pow_pos_nonneg; unfold zlen; lia). nia.
Qed.

(** ** Codes *)
(** the number in the record of a code is between a lower bound and its double *)
Definition low (k : kind) : Z :=
  match k with EncryptedKey => 322 * 256 ^ 41 | IntermediateCode => 44 * 256 ^ 52 | _ => 100 * 256 ^ 54 end.
Lemma headed b r n : Z.of_nat (List.length r) = n -> b2z b * 256 ^ n <= be_value (b :: r) < (b2z b + 1) * 256 ^ n.
Proof. intros <-. rewrite be_value_be2z, be2z_cons. pose proof (be2z_bound r). unfold zlen in *. lia. Qed.
Lemma code_record P k s : prims_ok P -> In k codes -> accepted P k s ->
  exists d, base58_reads s d /\ first_byte d <> x00 /\ low k <= be_value d < 2 * low k.
Proof.
  intros HP I A. destruct I as [<-|[<-|[<-|[]]]]; cbn [accepted] in A.
  - destruct A as (self & network & w & a & pw & detail & r & HS & E). destruct (session_net_sel _ _ _ _ HS) as (n & N).
    destruct (decrypt_inv P _ _ _ _ _ _ _ _ _ HP N E) as (p & f & ah & e1 & e2 & ck & c & k & seed & lot & sq & pwb & D & Lp & La & L1 & L2 & Lc & _ & _ & _ & _ & _ & M).
    apply reads_code in D. eexists. split; [exact D|].
    assert (PV : 322 <= be_value p <= 323 /\ first_byte p <> x00).
    { destruct M as [(-> & _)|(-> & _)]; (split; [vm_compute; split; congruence|discriminate]). }
    split; [destruct p; [discriminate Lp|apply PV]|]. rewrite be_app. pose proof (be_bound ([f] ++ ah ++ e1 ++ e2 ++ ck)) as B.
    assert (L : zlen ([f] ++ ah ++ e1 ++ e2 ++ ck) = 41) by (unfold zlen; rewrite !app_length, La, L1, L2, Lc; reflexivity). rewrite L in *.
    cbn [low]. set (M41 := 256 ^ 41) in *. assert (0 < M41) by reflexivity. nia.
  - destruct A as (self & network & w & a & random & t & arg & r & HS & E). destruct (session_net_sel _ _ _ _ HS) as (n & N).
    rewrite (create_eq P HP _ _ _ _ _ _ _ _ _ N) in E. destruct (entropy_arg random arg) as [seed0|]; [|discriminate E].
    destruct (check_decode P s base58_alphabet) as [d|e] eqn:D; [|discriminate E].
    unfold create_result in E. destruct (Nat.eqb_spec (List.length d) 49) as [L|L]; [|discriminate E].
    destruct (type_of t) as [c|]; [|discriminate E]. destruct (magic_of (upto 8 d)) as [lot|] eqn:MG; [|discriminate E]. clear E.
    apply magic_of_inv in MG. destruct d as [|b d]; [discriminate L|].
    assert (EB : b = x2c). { unfold upto in MG. cbn [firstn] in MG. destruct lot; vm_compute in MG; congruence. } subst b.
    apply (reads58check P HP) in D. unfold base58check_reads in D. eexists. split; [exact D|]. cbn [app]. split; [discriminate|].
    pose proof (headed x2c (d ++ checksum4 P (x2c :: d)) 52 ltac:(rewrite app_length, checksum4_length by exact HP; cbn [List.length] in L; lia)) as B.
    cbn [low]. change (b2z x2c) with 44 in B. set (M := 256 ^ 52) in *. assert (0 < M) by reflexivity. lia.
  - destruct A as (self & network & w & a & pw & detail & r & HS & E). destruct (session_net_sel _ _ _ _ HS) as (n & N).
    pose proof (confirm_bad P self network n w a s pw detail N) as B. destruct (check_decode P s base58_alphabet) as [d|e] eqn:D; [|rewrite B in E; discriminate E].
    destruct (Nat.eq_dec (List.length d) 51) as [L|L]; [clear B|rewrite (B L) in E; discriminate E].
    destruct (cut 5 d ltac:(lia)) as (p & d1 & -> & Lp). rewrite app_length in L.
    assert (EP : p = [x64; x3b; xf6; xa8; x9a]).
    { destruct d1 as [|f d2]; [cbn in L; lia|]. cbn [List.length] in L.
      destruct (cut 4 d2 ltac:(lia)) as (ah & d3 & -> & La). rewrite app_length in L. destruct (cut 8 d3 ltac:(lia)) as (ent & d4 & -> & Le). rewrite app_length in L.
      destruct d4 as [|b0 d5]; [cbn in L; lia|]. cbn [List.length] in L. destruct (cut 16 d5 ltac:(lia)) as (q1 & q2 & -> & L1). rewrite app_length in L.
      rewrite (confirm_eq P HP self network n w a s p f ah ent b0 q1 q2 pw detail N D Lp La Le L1 ltac:(lia)) in E.
      destruct (bytes_eqb [x64; x3b; xf6; xa8; x9a] p) eqn:Q; [symmetry; apply bytes_eqb_spec, Q|discriminate E]. }
    subst p. apply (reads58check P HP) in D. unfold base58check_reads in D. eexists. split; [exact D|]. cbn [app] in *. split; [discriminate|].
    set (ck := checksum4 P _) in *. assert (Lc : List.length ck = 4%nat) by (apply checksum4_length; exact HP). clearbody ck.
    pose proof (headed x64 (x3b :: xf6 :: xa8 :: x9a :: d1 ++ ck) 54 ltac:(cbn [List.length] in *; rewrite app_length, Lc; lia)) as B.
    cbn [low]. change (b2z x64) with 100 in B. set (M := 256 ^ 54) in *. assert (0 < M) by reflexivity. lia.
Qed.
Theorem C106_codes : forall P k k' s t, prims_ok P -> In k codes -> In k' codes -> within s t ->
  accepted P k s -> accepted P k' t -> longer_kind k k'.
Proof.
  intros P k k' s t HP J J' (y1 & y2 & NY & ->) A A'.
  destruct (code_record P k s HP J A) as (d & R & N & B), (code_record P k' _ HP J' A') as (d' & R' & N' & B').
  assert (Pk : forall x, 0 < low x) by (intros []; reflexivity). pose proof (Pk k). pose proof (Pk k').
  pose proof (nest_value s y1 y2 d d' R R' NY ltac:(lia) ltac:(lia) N') as G. assert (L : low k < low k') by lia.
  clear - J J' L. destruct J as [<-|[<-|[<-|[]]]], J' as [<-|[<-|[<-|[]]]]; cbn [longer_kind]; try exact I; revert L; vm_compute; intros L; discriminate L.
Qed.
(** for encrypted keys, spelled out *)
Theorem C106_decrypt : forall P self network w a self' network' w' a' s t pw pw' detail detail' r r', prims_ok P ->
  session self network w a -> session self' network' w' a' -> within s t ->
  decrypt P self s pw network detail = Ok r -> decrypt P self' t pw' network' detail' <> Ok r'.
Proof.
  intros P self network w a self' network' w' a' s t pw pw' detail detail' r r' HP HS HS' W E E'.
  apply (C106_codes P EncryptedKey EncryptedKey s t HP (or_introl eq_refl) (or_introl eq_refl) W).
  - exists self, network, w, a, pw, detail, r. split; assumption.
  - exists self', network', w', a', pw', detail', r'. split; assumption.
Qed.

(** ** WIFs and addresses of one prefix *)
Lemma minimal_head w p r : 1 <= w -> minimal_bytes w p -> first_byte (p ++ r) <> x00 /\ w * 256 ^ zlen r <= be_value (p ++ r) < (w + 1) * 256 ^ zlen r.
Proof.
  intros Hw [V S]. split.
  - destruct p as [|b p]; [cbn in V; lia|]. cbn [app first_byte]. intros ->. destruct p as [|c p]; [vm_compute in V; lia|].
    pose proof (shortest_length_lt (x00 :: c :: p)) as X. cbn [first_byte List.length] in X. rewrite S in X. cbn [List.length] in X. specialize (X ltac:(lia) eq_refl). lia.
  - rewrite be_app, V. pose proof (be_bound r). lia.
Qed.
Theorem C106_wif : forall s t w k k' ty ck ck', 1 <= w -> within s t ->
  decode_wif s w = Ok (k, ty, ck) -> decode_wif t w <> Ok (k', ty, ck').
Proof.
  intros s t w k k' ty ck ck' Hw (y1 & y2 & NY & ->) E E'. assert (Hw0 : 0 <= w) by lia. apply (C09_decode_wif_exact _ _ _ _ _ Hw0) in E, E'.
  destruct E as (raw & c & R & T & (p & m & Mp & Lk & Lc & Lm & ->)), E' as (raw' & c' & R' & T' & (p' & m' & Mp' & Lk' & Lc' & Lm' & ->)).
  assert (c' = c) by (destruct c, c'; try reflexivity; rewrite T in T'; vm_compute in T'; discriminate T'). subst c'.
  destruct (minimal_head w p (k ++ m ++ ck) Hw Mp) as [N B], (minimal_head w p' (k' ++ m' ++ ck') Hw Mp') as [N' B'].
  assert (L : zlen (k' ++ m' ++ ck') = zlen (k ++ m ++ ck)) by (unfold zlen; rewrite !app_length; lia). rewrite L in B'.
  set (M := 256 ^ zlen (k ++ m ++ ck)) in *. assert (0 < M) by (apply Z.pow_pos_nonneg; unfold zlen; lia).
  pose proof (nest_value s y1 y2 _ _ R R' NY ltac:(nia) ltac:(nia) N'). nia.
Qed.
(** behind: whatever the type *)
Theorem C106_wif_behind : forall s y w x x', 1 <= w -> y <> [] -> decode_wif s w = Ok x -> decode_wif (s ++ y) w <> Ok x'.
Proof.
  intros s y w [[k ty] ck] [[k' ty'] ck'] Hw NY E E'. assert (Hw0 : 0 <= w) by lia. apply (C09_decode_wif_exact _ _ _ _ _ Hw0) in E, E'.
  destruct E as (raw & c & R & T & (p & m & Mp & Lk & Lc & Lm & ->)), E' as (raw' & c' & R' & T' & (p' & m' & Mp' & Lk' & Lc' & Lm' & ->)).
  destruct (minimal_head w p (k ++ m ++ ck) Hw Mp) as [_ B], (minimal_head w p' (k' ++ m' ++ ck') Hw Mp') as [_ B'].
  assert (L : zlen (k' ++ m' ++ ck') <= zlen (k ++ m ++ ck) + 1) by (unfold zlen; rewrite !app_length, Lk, Lk', Lc, Lc', Lm, Lm'; destruct c, c'; cbn; lia).
  assert (L2 : zlen (k ++ m ++ ck) <= zlen (k' ++ m' ++ ck') + 1) by (unfold zlen; rewrite !app_length, Lk, Lk', Lc, Lc', Lm, Lm'; destruct c, c'; cbn; lia).
  assert (ZL : 0 <= zlen (k ++ m ++ ck) /\ 0 <= zlen (k' ++ m' ++ ck')) by (unfold zlen; lia).
  pose proof (read_value _ _ R) as VE. pose proof (read_value _ _ R') as VE'. rewrite value_app in VE'.
  pose proof (value_bounds y) as [Y1 Y2]. destruct (pow58 y NY) as [K1 K2].
  set (V := be_value (p ++ k ++ m ++ ck)) in *. set (V' := be_value (p' ++ k' ++ m' ++ ck')) in *.
  set (n := zlen (k ++ m ++ ck)) in *. set (n' := zlen (k' ++ m' ++ ck')) in *.
  assert (Q : 0 < 256 ^ n /\ 0 < 256 ^ n') by (split; apply Z.pow_pos_nonneg; lia).
  assert (VV : value_of s = V) by nia. assert (VV' : value_of s * 58 ^ zlen y + value_of y = V') by nia. clear VE VE'. rewrite VV in VV'.
  assert (L58 : List.length y = 1%nat -> 58 ^ zlen y = 58) by (intros X; unfold zlen; rewrite X; reflexivity).
  set (K := 58 ^ zlen y) in *. assert (C : n' = n + 1 \/ n' <= n) by lia.
  destruct C as [C|C].
  - rewrite C, Z.pow_add_r in B' by lia. change (256 ^ 1) with 256 in B'. destruct K2 as [K2|K2]; [rewrite (L58 K2) in *; nia|nia].
  - assert (256 ^ n' <= 256 ^ n) by (apply Z.pow_le_mono_r; lia). nia.
Qed.
Theorem C106_address : forall P s t a h h', prims_ok P -> 1 <= a -> within s t ->
  P2PKH_decode P s (Some a) None = Ok h -> P2PKH_decode P t (Some a) None <> Ok h'.
Proof.
  intros P s t a h h' HP Ha (y1 & y2 & NY & ->) E E'. assert (Ha0 : 0 <= default default_address_prefix (Some a)) by (cbn [default]; lia).
  apply (P2PKH_decode_iff P _ _ _ _ HP Ha0) in E, E'. cbn [default] in E, E'. destruct E as (x & Lx & _ & E), E' as (x' & Lx' & _ & E').
  apply (reads58check P HP) in E, E'. unfold base58check_reads in E, E'. rewrite <- app_assoc in E, E'.
  pose proof (pre_minimal a ltac:(lia)) as M.
  destruct (minimal_head a (pre a) (x ++ checksum4 P (pre a ++ x)) Ha M) as [N B], (minimal_head a (pre a) (x' ++ checksum4 P (pre a ++ x')) Ha M) as [N' B'].
  assert (L : zlen (x' ++ checksum4 P (pre a ++ x')) = zlen (x ++ checksum4 P (pre a ++ x))) by (unfold zlen; rewrite !app_length, !checksum4_length by exact HP; lia).
  rewrite L in B'. set (M1 := 256 ^ zlen (x ++ checksum4 P (pre a ++ x))) in *. assert (0 < M1) by (apply Z.pow_pos_nonneg; unfold zlen; lia).
  pose proof (nest_value s y1 y2 _ _ E E' NY ltac:(nia) ltac:(nia) N'). nia.
Qed.

(** addresses with prefix 0 (Bitcoin): refused for the length alone, unless the hash
    starts with a byte below 5 *)
Theorem C106_address_zero : forall P s t h h', prims_ok P -> within s t -> over bitcoin_alphabet t -> 5 <= b2z (first_byte h) -> List.length h = 20%nat ->
  P2PKH_decode P s (Some 0) None = Ok (hex h) -> P2PKH_decode P t (Some 0) None <> Ok h'.
Proof.
  intros P s t h h' HP (y1 & y2 & NY & ->) O B5 Lh E E'. assert (Ha0 : 0 <= default default_address_prefix (Some 0)) by (cbn [default]; lia).
  apply (P2PKH_decode_iff P _ _ _ _ HP Ha0) in E, E'. cbn [default] in E, E'. destruct E as (x & Lx & EH & E), E' as (x' & Lx' & _ & E').
  apply tohex_inj in EH. subst x. change (pre 0) with [x00] in E, E'.
  apply (reads58check P HP) in E, E'. unfold base58check_reads in E, E'. rewrite <- app_assoc in E, E'.
  set (ck := checksum4 P ([x00] ++ h)) in *. set (ck' := checksum4 P ([x00] ++ x')) in *.
  assert (Lc : List.length ck = 4%nat) by (apply checksum4_length; exact HP). assert (Lc' : List.length ck' = 4%nat) by (apply checksum4_length; exact HP).
  clearbody ck ck'. destruct h as [|b h]; [discriminate Lh|]. cbn [first_byte] in B5.
  set (d := [x00] ++ (b :: h) ++ ck) in *. set (d' := [x00] ++ x' ++ ck') in *.
  assert (V : 5 * 256 ^ 23 <= be_value d).
  { unfold d. rewrite be_app. change (be_value [x00]) with 0. cbn [app]. pose proof (headed b (h ++ ck) 23 ltac:(rewrite app_length, Lc; cbn [List.length] in Lh; lia)).
    assert (0 < 256 ^ 23) by reflexivity. nia. }
  assert (V' : be_value d' < 256 ^ 24).
  { unfold d'. rewrite be_app. change (be_value [x00]) with 0. pose proof (be_bound (x' ++ ck')) as Q. unfold zlen in Q. rewrite app_length, Lx', Lc' in Q. lia. }
  assert (LL : List.length d' = List.length d). { unfold d, d'. rewrite !app_length, Lx', Lc', Lc, Lh. reflexivity. }
  assert (E24 : 256 ^ 24 = 256 * 256 ^ 23) by reflexivity. assert (P23 : 0 < 256 ^ 23) by reflexivity.
  destruct s as [|c r].
  { pose proof (read_value _ _ E) as RV. change (value_of []) with 0 in RV. lia. }
  assert (D0 : digit_of bitcoin_alphabet c = 0).
  { pose proof (digit_low c). pose proof (read_value _ _ E) as RV. destruct (value_first c r) as [F1 _].
    destruct (Z.eq_dec (digit_of bitcoin_alphabet c) 0) as [|D]; [assumption|exfalso].
    destruct (Z.eq_dec (digit_of bitcoin_alphabet c) (-1)) as [D1|D1]; [specialize (F1 D1); lia|].
    apply (read_first_other c r d ltac:(lia) E). reflexivity. }
  assert (Vr : be_value d < 58 ^ zlen r).
  { pose proof (read_value _ _ E) as RV. rewrite value_cons, D0 in RV. pose proof (value_bounds r) as [_ U]. lia. }
  assert (E58 : 58 ^ zlen (c :: r) = 58 * 58 ^ zlen r).
  { replace (zlen (c :: r)) with (Z.succ (zlen r)) by (unfold zlen; cbn [List.length]; lia). apply Z.pow_succ_r. unfold zlen. lia. }
  destruct (Z.eq_dec (value_of y1) 0) as [Z1|Z1].
  - destruct y2 as [|c2 y2].
    + destruct NY as [NY|NY]; [|congruence]. rewrite app_nil_r in E'. destruct (nest_longer _ y1 d d' Z1 NY E E' ltac:(lia)) as [L _]. lia.
    + pose proof (read_value _ _ E) as RV. pose proof (read_value _ _ E') as RV'. rewrite value_app, Z1, Z.mul_0_l, Z.add_0_l, value_app in RV'.
      pose proof (value_bounds (c2 :: y2)) as [Y1 _]. pose proof (pow58 (c2 :: y2) ltac:(discriminate)) as [K _]. set (KK := 58 ^ zlen (c2 :: y2)) in *.
      assert (VS : value_of (c :: r) = be_value d) by lia. rewrite VS in RV'. nia.
  - pose proof (read_value _ _ E) as RV. pose proof (read_value _ _ E') as RV'. apply over_cut in O. destruct O as [O1 O2].
    apply over_cut in O2. destruct O2 as [O2 O3]. pose proof (value_nonneg _ O1) as W1. pose proof (value_nonneg _ O2) as W2. pose proof (value_nonneg _ O3) as W3.
    rewrite value_app, value_app in RV'. assert (Q : 1 * 58 ^ zlen (c :: r) <= value_of y1 * 58 ^ zlen ((c :: r) ++ y2)).
    { apply Z.mul_le_mono_nonneg; [lia|lia|apply Z.pow_nonneg; lia|]. apply Z.pow_le_mono_r; [lia|]. unfold zlen. rewrite app_length. lia. }
    assert (0 < 58 ^ zlen y2) by (apply Z.pow_pos_nonneg; unfold zlen; lia). nia.
Qed.

(** ** In front of a WIF: not always refused *)
(** the letter L in front of any Bitcoin WIF (prefix 0x80, not compressed) makes a text that
    is accepted as a compressed one, of a private key in the range: the checksum is not compared *)
Theorem C106_wif_letter_L : forall s k ck, over bitcoin_alphabet s -> decode_wif s 0x80 = Ok (k, str "wif", ck) ->
  exists k' e ck', scalar k' e /\ decode_wif (str "L" ++ s)%list 0x80 = Ok (k', str "wif-compressed", ck').
Proof.
  intros s k ck O E. apply (C09_decode_wif_exact s 128 k (str "wif") ck ltac:(lia)) in E.
  destruct E as (raw & c & R & T & (p & m & Mp & Lk & Lc & Lm & ->)).
  assert (c = false) by (destruct c; [vm_compute in T; discriminate T|reflexivity]). subst c.
  destruct (minimal_head 128 p (k ++ m ++ ck) ltac:(lia) Mp) as [N B].
  assert (L : zlen (k ++ m ++ ck) = 36) by (unfold zlen; rewrite !app_length, Lk, Lc, Lm; reflexivity). rewrite L in B.
  pose proof (read_value _ _ R) as VE. set (V := be_value (p ++ k ++ m ++ ck)) in *. clearbody V.
  assert (VV : value_of s = V) by (assert (0 < 256 ^ 36) by reflexivity; lia). clear VE.
  (* fifty-one letters *)
  assert (LS : List.length s = 51%nat).
  { destruct s as [|x r]; [cbn in VV; subst V; revert B; vm_compute; intros [B _]; exfalso; apply B; reflexivity|].
    assert (D1 : 1 <= digit_of bitcoin_alphabet x).
    { inversion O as [|? ? Ix _]; subst. pose proof (digit_range x Ix). destruct (Z.eq_dec (digit_of bitcoin_alphabet x) 0) as [D|]; [|lia].
      exfalso. apply N. apply (read_first_letter x r); assumption. }
    assert (U := value_bounds (x :: r)). assert (W : 0 <= value_of r). { inversion O; subst. apply value_nonneg. assumption. }
    pose proof (value_cons x r) as C. rewrite VV in *. destruct U as [_ U]. unfold zlen in *. cbn [List.length] in *.
    assert (H58 : forall n, 0 <= n -> 0 < 58 ^ n) by (intros; apply Z.pow_pos_nonneg; lia). pose proof (H58 (Z.of_nat (List.length r)) ltac:(lia)).
    destruct (lt_eq_lt_dec (S (List.length r)) 51) as [[G|G]|G]; [exfalso|exact G|exfalso].
    - assert (58 ^ Z.of_nat (S (List.length r)) <= 58 ^ 50) by (apply Z.pow_le_mono_r; lia).
      assert (58 ^ 50 <= 128 * 256 ^ 36) by (vm_compute; discriminate). lia.
    - assert (58 ^ 51 <= 58 ^ Z.of_nat (List.length r)) by (apply Z.pow_le_mono_r; lia).
      assert (129 * 256 ^ 36 <= 58 ^ 51) by (vm_compute; discriminate). nia. }
  assert (VL : value_of (str "L" ++ s)%list = 19 * 58 ^ 51 + V).
  { change (str "L") with [76%N]. cbn [app]. rewrite value_cons, VV. unfold zlen. rewrite LS. reflexivity. }
  assert (G : 128 * 256 ^ 37 <= 19 * 58 ^ 51 + V < 129 * 256 ^ 37).
  { assert (X1 : 128 * 256 ^ 37 <= 19 * 58 ^ 51 + 128 * 256 ^ 36) by (vm_compute; discriminate).
    assert (X2 : 19 * 58 ^ 51 + 129 * 256 ^ 36 <= 129 * 256 ^ 37) by (vm_compute; discriminate). lia. }
  (* the bytes that are read *)
  rewrite <- VL in G. set (U := value_of (str "L" ++ s)%list) in *. 
  assert (P37 : 0 < 256 ^ 37) by reflexivity. assert (E38 : 256 ^ 38 = 256 * 256 ^ 37) by reflexivity.
  destruct (value_exists U) as (b & S & Vb); [lia|].
  assert (FB : first_byte b <> x00).
  { intros Z. clear - Z S Vb G P37. clearbody U. destruct b as [|x b]; [change (be2z []) with 0 in Vb; lia|]. cbn [first_byte] in Z. subst x. cbn [strip_zeros] in S.
    change (Byte.eqb x00 x00) with true in S. cbn iota in S. apply (f_equal (@List.length byte)) in S. pose proof (strip_zeros_length b). cbn in S. lia. }
  assert (LB : zlen b = 38).
  { clear - FB Vb G P37 E38. clearbody U. destruct (length_bounds b FB) as [B1 B2]. rewrite be_value_be2z, Vb in B1, B2.
    assert (G1 : 256 ^ 37 < 256 ^ zlen b) by lia. assert (G2 : 256 ^ (zlen b - 1) < 256 ^ 38) by lia.
    assert (37 < zlen b) by (apply (Z.pow_lt_mono_r_iff 256); unfold zlen in *; lia). assert (zlen b - 1 < 38) by (apply (Z.pow_lt_mono_r_iff 256); lia). lia. }
  assert (RL : base58_reads (str "L" ++ s)%list b).
  { split.
    - change (str "L") with [76%N]. cbn [app]. constructor; [lia|]. destruct R as [R _]. exact R.
    - exists b. split; [exact S|]. change (zlen bitcoin_alphabet) with 58. fold (value_of (str "L" ++ s)%list). fold U. rewrite be_value_be2z, Vb.
      split; [lia|].
      change 58 with (zlen bitcoin_alphabet). rewrite (zero_prefix_count_eq bitcoin_alphabet). change (str "L") with [76%N]. cbn [app List.map zero_prefixes]. cbv zeta.
      change (digit_of bitcoin_alphabet 76%N) with 19. change (0 * zlen bitcoin_alphabet + 19) with 19. change (19 =? 0) with false. cbn [Nat.add].
      rewrite count_from; [reflexivity|]. intros j Lj. rewrite firstn_map. fold (value_of (firstn j s)).
      pose proof (value_bounds (firstn j s)) as [UB _]. unfold zlen in UB. rewrite map_length in Lj. rewrite firstn_length_le in UB by lia.
      assert (0 < 58 ^ Z.of_nat j) by (apply Z.pow_pos_nonneg; lia). nia. }
  unfold zlen in LB. destruct b as [|h b]; [cbn in LB; lia|]. cbn [List.length] in LB.
  assert (Hh : h = x80).
  { pose proof (headed h b 37 ltac:(lia)) as Q. rewrite be_value_be2z, Vb in Q. assert (H : b2z h = 128) by nia.
    clear - H. destruct h; (reflexivity || discriminate H). }
  subst h.
  destruct (cut 32 b ltac:(lia)) as (k' & b1 & -> & Lk'). rewrite app_length in LB. destruct (cut 1 b1 ltac:(lia)) as (m' & ck' & -> & Lm'). rewrite app_length in LB.
  (* a private key *)
  assert (SK : scalar k' (be2z k')).
  { unfold scalar, fixed_bytes. rewrite be_value_be2z. split; [split; [exact Lk'|reflexivity]|].
    assert (Q : be2z (x80 :: k' ++ m' ++ ck') = 128 * 256 ^ 37 + (be2z k' * 256 ^ 5 + be2z (m' ++ ck'))).
    { rewrite be2z_cons, be2z_app. unfold zlen. rewrite !app_length, Lk', Lm'. replace (List.length ck') with 4%nat by lia. reflexivity. }
    rewrite Vb in Q. pose proof (be2z_bound (m' ++ ck')) as Z5. replace (zlen (m' ++ ck')) with 5 in Z5 by (unfold zlen; rewrite app_length, Lm'; lia).
    assert (X1 : 128 * 256 ^ 37 + 2 * 256 ^ 5 <= 19 * 58 ^ 51 + 128 * 256 ^ 36) by (vm_compute; discriminate).
    assert (X2 : 19 * 58 ^ 51 + 129 * 256 ^ 36 <= 128 * 256 ^ 37 + secp_n * 256 ^ 5) by (vm_compute; discriminate).
    assert (P5 : 0 < 256 ^ 5) by reflexivity. set (q := be2z k') in *. set (r := be2z (m' ++ ck')) in *.
    set (T5 := 256 ^ 5) in *. set (T37 := 256 ^ 37) in *. set (T36 := 256 ^ 36) in *. set (F51 := 58 ^ 51) in *. set (n := secp_n) in *.
    clearbody q r T5 T37 T36 F51 n U. clear - Q Z5 X1 X2 P5 VL B. subst U. split; nia. }
  exists k', (be2z k'), ck'. split; [exact SK|]. apply (C09_decode_wif_exact _ 128 k' (str "wif-compressed") ck' ltac:(lia)). exists (x80 :: k' ++ m' ++ ck'), true.
  split; [exact RL|]. split; [reflexivity|]. exists [x80], m'. split; [split; reflexivity|]. split; [exact Lk'|]. split; [lia|]. split; [exact Lm'|reflexivity].
Qed.
