(** * C106, continued: what may stand in front of a Bitcoin WIF *)
From Coq Require Import Lia ZifyBool ZifyNat ZifyN.
From Verif Require Import Exceptions ErrorFacts Py Prims Const Spec PyFacts Utils UtilsFacts Base58 Base58Facts Crypto
  Curve SpecCurve CurveFacts Secp256k1 SecpFacts P2PKHAddress Cryptocurrencies Wif Bip38 SpecBip38 SpecRecords SpecReads SpecSession SpecInterop SpecOutcome
  CodecFacts CodecFacts2 ReadFacts Bip38Facts Bip38Facts2 ECFacts Sessions RecordFacts Toy PropBase58 PropAlphabet PropUtils PropCodec PropDecrypt PropIntermediate PropCreate PropEC PropUnique PropInterop PropSession PropLetters PropKinds PropTypo PropSpace PropNest.

(** encrypt called with "L" and a WIF of an uncompressed key: what it does with the WIF of
    another private key, compressed *)
Theorem C106_encrypt_letter_L : forall P self network a s k ck, prims_ok P -> session self network 0x80 a ->
  over bitcoin_alphabet s -> decode_wif s 0x80 = Ok (k, str "wif", ck) ->
  exists k' e s', scalar k' e /\ wif_text P 0x80 true k' s' /\
    forall pw, encrypt P self (str "L" ++ s)%list pw network = encrypt P self s' pw network.
Proof.
  intros P self network a s k ck HP HS O E. destruct (C106_wif_letter_L s k ck O E) as (k' & e & ck' & SK & E').
  exists k', e, (wif_of P 0x80 true k'). split; [exact SK|]. split; [apply wif_of_text; lia|]. intros pw.
  destruct (session_net_sel _ _ _ _ HS) as (n & N). rewrite !(encrypt_eq P HP _ _ _ _ _ _ _ N), E'.
  destruct SK as [[L _] _]. rewrite (decode_wif_of P 0x80 true k' HP ltac:(lia) L). reflexivity.
Qed.

(** and nothing else may: a text that contains a Bitcoin WIF, and is accepted as a Bitcoin WIF,
    is the letter L and a WIF of an uncompressed key *)
Theorem C106_wif_only_L : forall s t k k' ty ty' ck ck', over bitcoin_alphabet t -> within s t ->
  decode_wif s 0x80 = Ok (k, ty, ck) -> decode_wif t 0x80 = Ok (k', ty', ck') ->
  t = (str "L" ++ s)%list /\ ty = str "wif" /\ ty' = str "wif-compressed".
Proof.
  intros s t k k' ty ty' ck ck' O W E E'. pose proof W as (y1 & y2 & NY & ->).
  pose proof E as E0. pose proof E' as E0'. assert (Hw0 : 0 <= 128) by lia. apply (C09_decode_wif_exact _ _ _ _ _ Hw0) in E, E'.
  destruct E as (raw & c & R & T & (p & m & Mp & Lk & Lc & Lm & ->)), E' as (raw' & c' & R' & T' & (p' & m' & Mp' & Lk' & Lc' & Lm' & ->)).
  destruct (minimal_head 128 p (k ++ m ++ ck) ltac:(lia) Mp) as [N B], (minimal_head 128 p' (k' ++ m' ++ ck') ltac:(lia) Mp') as [N' B'].
  assert (P36 : 0 < 256 ^ 36) by reflexivity. assert (P37 : 256 ^ 37 = 256 * 256 ^ 36) by reflexivity.
  assert (L : zlen (k ++ m ++ ck) = if c then 37 else 36) by (unfold zlen; rewrite !app_length, Lk, Lc, Lm; destruct c; reflexivity).
  assert (L' : zlen (k' ++ m' ++ ck') = if c' then 37 else 36) by (unfold zlen; rewrite !app_length, Lk', Lc', Lm'; destruct c'; reflexivity).
  rewrite L in B. rewrite L' in B'.
  set (d := p ++ k ++ m ++ ck) in *. set (d' := p' ++ k' ++ m' ++ ck') in *. clearbody d d'.
  assert (V : 0 < be_value d) by (clear - B P36 P37; destruct c; lia).
  assert (V' : 0 < be_value d') by (clear - B' P36 P37; destruct c'; lia).
  pose proof (nest_value s y1 y2 d d' R R' NY V V' N') as G.
  (* the types *)
  destruct c.
  { exfalso. destruct c'; clear - B B' G P36 P37; lia. }
  destruct c'; [|exfalso; clear - B B' G P36; lia].
  split; [|split; [exact T|exact T']].
  (* the lengths *)
  pose proof (over_cut _ _ O) as [O1 O2]. pose proof (over_cut _ _ O2) as [Os O3].
  pose proof (read_value _ _ R) as VE. pose proof (read_value _ _ R') as VE'.
  assert (VS : value_of s = be_value d) by (clear - VE V; lia). assert (VT : value_of (y1 ++ s ++ y2) = be_value d') by (clear - VE' V'; lia). clear VE VE'.
  pose proof (value_bounds s) as [_ U]. rewrite VS in U.
  assert (S51 : 50 < zlen s).
  { apply (Z.pow_lt_mono_r_iff 58); [lia|unfold zlen; lia|]. assert (X : 58 ^ 50 <= 128 * 256 ^ 36) by (vm_compute; discriminate). clear - U B X. lia. }
  assert (K51 : 58 ^ 51 <= 58 ^ zlen s) by (apply Z.pow_le_mono_r; lia).
  assert (X52 : 129 * 256 ^ 37 <= 58 * 58 ^ 51) by (vm_compute; discriminate).
  (* the first letter is not the letter of zero *)
  destruct y1 as [|x y1].
  { exfalso. destruct NY as [NY|NY]; [congruence|]. cbn [app] in E0'. exact (C106_wif_behind s y2 128 _ _ ltac:(lia) NY E0 E0'). }
  assert (Ix : In x bitcoin_alphabet) by (inversion O1; assumption).
  assert (D1 : 1 <= digit_of bitcoin_alphabet x).
  { pose proof (digit_range x Ix). destruct (Z.eq_dec (digit_of bitcoin_alphabet x) 0) as [D|]; [|lia].
    exfalso. apply N'. apply (read_first_letter x (y1 ++ s ++ y2) d' D). exact R'. }
  (* so nothing else stands around the WIF *)
  assert (W1 : 0 <= value_of y1) by (inversion O1; subst; apply value_nonneg; assumption).
  pose proof (value_nonneg _ O3) as W3. pose proof (value_nonneg _ Os) as W2.
  assert (Y : y1 = [] /\ y2 = []).
  { assert (Z : 58 * 58 ^ 51 <= value_of ((x :: y1) ++ s ++ y2) \/ (y1 = [] /\ y2 = [])).
    { destruct y1 as [|x1 y1]; [destruct y2 as [|x2 y2]; [right; split; reflexivity|]|]; left.
      - cbn [app]. rewrite value_cons, value_app.
        assert (58 ^ 52 <= 58 ^ zlen (s ++ x2 :: y2)) by (apply Z.pow_le_mono_r; [lia|]; clear - S51; unfold zlen in *; rewrite app_length; cbn [List.length]; lia).
        assert (0 < 58 ^ zlen (x2 :: y2)) by (apply Z.pow_pos_nonneg; unfold zlen; lia). change (58 * 58 ^ 51) with (58 ^ 52).
        set (A := 58 ^ 52) in *. set (Bb := 58 ^ zlen (s ++ x2 :: y2)) in *. set (Cc := 58 ^ zlen (x2 :: y2)) in *. assert (0 < A) by reflexivity.
        clearbody A Bb Cc. clear - H H0 H1 D1 W2 W3. nia.
      - cbn [app]. rewrite value_cons. 
        assert (W4 : 0 <= value_of (x1 :: y1 ++ s ++ y2)) by (apply value_nonneg; inversion O; assumption).
        assert (58 ^ 52 <= 58 ^ zlen (x1 :: y1 ++ s ++ y2)) by (apply Z.pow_le_mono_r; [lia|]; clear - S51; unfold zlen in *; cbn [List.length]; rewrite !app_length; lia).
        change (58 * 58 ^ 51) with (58 ^ 52). set (A := 58 ^ 52) in *. set (Bb := 58 ^ zlen (x1 :: y1 ++ s ++ y2)) in *. assert (0 < A) by reflexivity.
        clearbody A Bb. clear - H H0 D1 W4. nia. }
    destruct Z as [Z|Z]; [|exact Z]. exfalso. rewrite VT in Z. clear - Z B' X52. lia. }
  destruct Y as [-> ->]. rewrite !app_nil_r in *. cbn [app] in *. f_equal.
  (* and its digit is 19 *)
  rewrite value_cons, VS in VT.
  assert (S51' : zlen s < 52).
  { apply (Z.pow_lt_mono_r_iff 58); [lia|lia|]. change (58 ^ 52) with (58 * 58 ^ 51). set (A := 58 ^ zlen s) in *. set (Bb := 58 ^ 51) in *. clearbody A Bb.
    assert (0 < A) by (clear - U V; lia). clear - VT B' X52 D1 V H. nia. }
  assert (ES : zlen s = 51) by (clear - S51 S51'; lia). rewrite ES in VT.
  assert (Dx : digit_of bitcoin_alphabet x = 19).
  { assert (X1 : 18 * 58 ^ 51 + 129 * 256 ^ 36 <= 128 * 256 ^ 37) by (vm_compute; discriminate).
    assert (X2 : 129 * 256 ^ 37 <= 20 * 58 ^ 51) by (vm_compute; discriminate).
    set (A := 58 ^ 51) in *. assert (0 < A) by reflexivity. set (Q := 256 ^ 37) in *. set (q := 256 ^ 36) in *. clearbody A Q q.
    clear - X1 X2 VT B B' V H. nia. }
  clear - Ix Dx. cbn in Ix. repeat (destruct Ix as [<-|Ix]; [first [reflexivity|exfalso; vm_compute in Dx; discriminate Dx]|]). destruct Ix.
Qed.

(** ** The other prefixes *)
(** the one letter that may stand in front of a WIF of an uncompressed key, for each of the
    prefixes 30 ... 255 that has one *)
Definition letters_in_front : list (Z * string) :=
  [(33, "6"); (40, "7"); (47, "8"); (54, "9"); (61, "A"); (67, "B"); (74, "C"); (81, "D"); (88, "E"); (95, "F"); (101, "G"); (108, "H");
   (115, "J"); (122, "K"); (128, "L"); (135, "M"); (142, "N"); (149, "P"); (156, "Q"); (162, "R"); (169, "S"); (176, "T"); (183, "U");
   (190, "V"); (196, "W"); (203, "X"); (210, "Y"); (217, "Z"); (223, "a"); (230, "b"); (237, "c"); (244, "d"); (251, "e")]%string.

Definition fits_in (f q r w d : Z) : bool := (w * r <=? d * f + w * q) && (d * f + (w + 1) * q <=? (w + 1) * r).
Definition misses_in (f q r w d : Z) : bool := (d * f + (w + 1) * q <=? w * r) || ((w + 1) * r <=? d * f + w * q).
Definition fits (w d : Z) : bool := fits_in (58 ^ 51) (256 ^ 36) (256 ^ 37) w d.
Definition misses (w d : Z) : bool := misses_in (58 ^ 51) (256 ^ 36) (256 ^ 37) w d.
Definition listed (w : Z) (c : N) : bool := existsb (fun p => (fst p =? w) && str_eqb (str (snd p)) [c]) letters_in_front.
Definition table_ok (f q r : Z) : bool := 
  forallb (fun w => let l := List.filter (fun p => fst p =? w) letters_in_front in forallb (fun c => let d := digit_of bitcoin_alphabet c in
    if existsb (fun p => str_eqb (str (snd p)) [c]) l then fits_in f q r w d && (1 <=? d) else (d =? 0) || misses_in f q r w d) bitcoin_alphabet) (List.map Z.of_nat (seq 30 226)).
Lemma table_checked : table_ok (58 ^ 51) (256 ^ 36) (256 ^ 37) = true.
Proof. vm_compute. reflexivity. Qed.
Lemma listed_filter w c l : existsb (fun p : Z * string => str_eqb (str (snd p)) [c]) (List.filter (fun p => fst p =? w) l) =
  existsb (fun p => (fst p =? w) && str_eqb (str (snd p)) [c]) l.
Proof. induction l as [|[v s] l IH]; [reflexivity|]. cbn [List.filter existsb fst snd]. destruct (v =? w); cbn [existsb fst snd andb orb]; rewrite <- IH; reflexivity. Qed.
Lemma table_in f q r w x : table_ok f q r = true -> 30 <= w <= 255 -> In x bitcoin_alphabet ->
  let d := digit_of bitcoin_alphabet x in
  (listed w x = true /\ fits_in f q r w d = true /\ 1 <= d) \/ (listed w x = false /\ (d = 0 \/ misses_in f q r w d = true)).
Proof.
  intros T Hw Ix d. unfold table_ok in T. pose proof (proj1 (forallb_forall _ _) T w) as T1. clear T.
  assert (J : In w (List.map Z.of_nat (seq 30 226))) by (apply in_map_iff; exists (Z.to_nat w); split; [lia|apply in_seq; lia]).
  specialize (T1 J). clear J. cbv zeta in T1. pose proof (proj1 (forallb_forall _ _) T1 x Ix) as T. clear T1. cbv beta in T. fold d in T.
  rewrite listed_filter in T. fold (listed w x) in T.
  destruct (listed w x); [left|right].
  - apply andb_true_iff in T. destruct T as [T1 T2]. apply Z.leb_le in T2. auto.
  - apply orb_true_iff in T. destruct T as [T|T]; [apply Z.eqb_eq in T|]; auto.
Qed.
Lemma table_cases w x : 30 <= w <= 255 -> In x bitcoin_alphabet ->
  let d := digit_of bitcoin_alphabet x in
  (listed w x = true /\ fits w d = true /\ 1 <= d) \/ (listed w x = false /\ (d = 0 \/ misses w d = true)).
Proof. exact (table_in (58 ^ 51) (256 ^ 36) (256 ^ 37) w x table_checked). Qed.
Lemma listed_spec w x : listed w x = true <-> exists c, In (w, c) letters_in_front /\ str c = [x].
Proof.
  unfold listed. rewrite existsb_exists. split.
  - intros ([w' c] & I1 & H). apply andb_true_iff in H. destruct H as [H1 H2]. apply Z.eqb_eq in H1. apply str_eqb_spec in H2. cbn [fst snd] in *. subst w'. exists c. auto.
  - intros (c & I1 & H). exists (w, c). split; [exact I1|]. cbn [fst snd]. rewrite Z.eqb_refl, H. apply str_eqb_spec. reflexivity.
Qed.

(** a WIF of an uncompressed key has fifty-one letters *)
Lemma plain_wif w s k ck : 30 <= w <= 255 -> over bitcoin_alphabet s -> decode_wif s w = Ok (k, str "wif", ck) ->
  List.length s = 51%nat /\ w * 256 ^ 36 <= value_of s < (w + 1) * 256 ^ 36 /\ forall c, In c s -> (c < 128)%N.
Proof.
  intros Hw O E. apply (C09_decode_wif_exact s w k (str "wif") ck ltac:(lia)) in E.
  destruct E as (raw & c & R & T & (p & m & Mp & Lk & Lc & Lm & ->)).
  assert (c = false) by (destruct c; [vm_compute in T; discriminate T|reflexivity]). subst c.
  destruct (minimal_head w p (k ++ m ++ ck) ltac:(lia) Mp) as [N B].
  assert (L : zlen (k ++ m ++ ck) = 36) by (unfold zlen; rewrite !app_length, Lk, Lc, Lm; reflexivity). rewrite L in B.
  pose proof (read_value _ _ R) as VE. assert (P36 : 0 < 256 ^ 36) by reflexivity.
  assert (VV : value_of s = be_value (p ++ k ++ m ++ ck)) by (set (V := be_value (p ++ k ++ m ++ ck)) in *; clearbody V; clear - VE B P36 Hw; set (q := 256 ^ 36) in *; clearbody q; nia).
  split; [|split; [rewrite VV; exact B|destruct R as [R _]; apply Forall_forall, R]].
  rewrite <- VV in B. clear VE VV.
  assert (B30 : 30 * 256 ^ 36 <= value_of s < 256 ^ 37).
  { change (256 ^ 37) with (256 * 256 ^ 36). set (q := 256 ^ 36) in *. clearbody q. clear - B P36 Hw. nia. }
  clear B. destruct s as [|x r]; [cbn in B30; clear - B30 P36; exfalso; lia|].
  assert (D1 : 1 <= digit_of bitcoin_alphabet x).
  { inversion O as [|? ? Ix _]; subst. pose proof (digit_range x Ix). destruct (Z.eq_dec (digit_of bitcoin_alphabet x) 0) as [D|]; [|lia].
    exfalso. apply N. apply (read_first_letter x r); assumption. }
  pose proof (value_bounds (x :: r)) as [_ U]. assert (W : 0 <= value_of r) by (inversion O; subst; apply value_nonneg; assumption).
  pose proof (value_cons x r) as C. 
  assert (U1 : zlen r < 51).
  { apply (Z.pow_lt_mono_r_iff 58); [lia|lia|]. assert (X : 256 ^ 37 <= 58 ^ 51) by (vm_compute; discriminate).
    assert (PR : 0 < 58 ^ zlen r) by (apply Z.pow_pos_nonneg; unfold zlen; lia). set (A := 58 ^ zlen r) in *. set (F := 58 ^ 51) in *. set (G := 256 ^ 37) in *. clearbody A F G. clear - B30 X C W D1 PR. nia. }
  assert (U2 : 50 < zlen (x :: r)).
  { apply (Z.pow_lt_mono_r_iff 58); [lia|unfold zlen; lia|]. assert (X : 58 ^ 50 <= 30 * 256 ^ 36) by (vm_compute; discriminate). clear - B30 X U. lia. }
  unfold zlen in U1, U2. cbn [List.length] in *. lia.
Qed.
(** with a letter in front whose digit fits *)
Lemma wif_letter w x s k ck : 30 <= w <= 255 -> In x bitcoin_alphabet -> 1 <= digit_of bitcoin_alphabet x -> fits w (digit_of bitcoin_alphabet x) = true ->
  over bitcoin_alphabet s -> decode_wif s w = Ok (k, str "wif", ck) ->
  exists k' ck', decode_wif (x :: s) w = Ok (k', str "wif-compressed", ck').
Proof.
  intros Hw Ix D1 F O E. destruct (plain_wif w s k ck Hw O E) as (LS & B & A).
  pose proof (value_cons x s) as VL. unfold zlen in VL. rewrite LS in VL. change (Z.of_nat 51) with 51 in VL.
  set (U := value_of (x :: s)) in *. set (D := digit_of bitcoin_alphabet x) in *.
  assert (G : w * 256 ^ 37 <= U < (w + 1) * 256 ^ 37).
  { apply andb_true_iff in F. destruct F as [F1 F2]. apply Z.leb_le in F1, F2. set (DF := D * 58 ^ 51) in *. clearbody DF. clear - F1 F2 B VL. lia. }
  assert (P37 : 0 < 256 ^ 37) by reflexivity. assert (E38 : 256 ^ 38 = 256 * 256 ^ 37) by reflexivity.
  destruct (value_exists U) as (b & S & Vb). { clear - G P37 Hw. set (q := 256 ^ 37) in *. clearbody q. nia. }
  assert (G2 : 256 ^ 37 < U < 256 ^ 38). { rewrite E38. clear - G P37 Hw. set (q := 256 ^ 37) in *. clearbody q. nia. }
  assert (FB : first_byte b <> x00).
  { intros Z. clear - Z S Vb G2 P37. clearbody U. destruct b as [|y b]; [change (be2z []) with 0 in Vb; lia|]. cbn [first_byte] in Z. subst y. cbn [strip_zeros] in S.
    change (Byte.eqb x00 x00) with true in S. cbn iota in S. apply (f_equal (@List.length byte)) in S. pose proof (strip_zeros_length b). cbn in S. lia. }
  assert (LB : zlen b = 38).
  { clear - FB Vb G2. clearbody U. destruct (length_bounds b FB) as [B1 B2]. rewrite be_value_be2z, Vb in B1, B2.
    assert (G3 : 256 ^ 37 < 256 ^ zlen b) by lia. assert (G4 : 256 ^ (zlen b - 1) < 256 ^ 38) by lia.
    assert (37 < zlen b) by (apply (Z.pow_lt_mono_r_iff 256); unfold zlen in *; lia). assert (zlen b - 1 < 38) by (apply (Z.pow_lt_mono_r_iff 256); lia). lia. }
  assert (RL : base58_reads (x :: s) b).
  { split.
    - constructor; [|apply Forall_forall, A]. clear - Ix. cbn in Ix. repeat (destruct Ix as [<-|Ix]; [lia|]). destruct Ix.
    - exists b. split; [exact S|]. change (zlen bitcoin_alphabet) with 58. fold (value_of (x :: s)). fold U. rewrite be_value_be2z, Vb.
      split; [clear - G2 P37; lia|].
      change 58 with (zlen bitcoin_alphabet). rewrite (zero_prefix_count_eq bitcoin_alphabet). cbn [List.map zero_prefixes]. cbv zeta. fold D.
      rewrite Z.mul_0_l, Z.add_0_l. destruct (Z.eqb_spec D 0) as [Z|_]; [lia|]. cbn [Nat.add].
      rewrite count_from; [reflexivity|]. intros j Lj. rewrite firstn_map. fold (value_of (firstn j s)).
      pose proof (value_bounds (firstn j s)) as [UB _]. unfold zlen in UB. rewrite map_length in Lj. rewrite firstn_length_le in UB by lia.
      assert (0 < 58 ^ Z.of_nat j) by (apply Z.pow_pos_nonneg; lia). change (zlen bitcoin_alphabet) with 58. set (q := 58 ^ Z.of_nat j) in *. clearbody q.
      clear - UB H D1. nia. }
  unfold zlen in LB. destruct b as [|h b]; [cbn in LB; lia|]. cbn [List.length] in LB.
  assert (Hh : b2z h = w).
  { pose proof (headed h b 37 ltac:(lia)) as Q. rewrite be_value_be2z, Vb in Q. set (q := 256 ^ 37) in *. clearbody q U. clear - Q G P37. nia. }
  destruct (cut 32 b ltac:(lia)) as (k' & b1 & -> & Lk'). rewrite app_length in LB. destruct (cut 1 b1 ltac:(lia)) as (m' & ck' & -> & Lm'). rewrite app_length in LB.
  exists k', ck'. apply (C09_decode_wif_exact _ w k' (str "wif-compressed") ck' ltac:(lia)). exists (h :: k' ++ m' ++ ck'), true.
  split; [exact RL|]. split; [reflexivity|]. exists [h], m'. split.
  { split; [rewrite be_value_be2z; change (be2z [h]) with (0 * 256 + b2z h); lia|]. 
    clear - Hh Hw. cbn [shortest]. destruct h; reflexivity. }
  split; [exact Lk'|]. split; [lia|]. split; [exact Lm'|reflexivity].
Qed.

(** the texts that contain a WIF of an uncompressed key, and are accepted as a compressed one *)
Theorem C106_wif_in_front : forall w s t k ck, 30 <= w <= 255 -> over bitcoin_alphabet t -> within s t -> decode_wif s w = Ok (k, str "wif", ck) ->
  ((exists k' ck', decode_wif t w = Ok (k', str "wif-compressed", ck')) <-> exists c, In (w, c) letters_in_front /\ t = (str c ++ s)%list).
Proof.
  intros w s t k ck Hw O W E. split.
  - intros (k' & ck' & E'). pose proof W as (y1 & y2 & NY & ->). pose proof (over_cut _ _ O) as [O1 O2]. pose proof (over_cut _ _ O2) as [Os O3].
    destruct (plain_wif w s k ck Hw Os E) as (LS & B & _).
    pose proof E' as E0'. apply (C09_decode_wif_exact _ w _ _ _ ltac:(lia)) in E'. destruct E' as (raw' & c' & R' & T' & (p' & m' & Mp' & Lk' & Lc' & Lm' & ->)).
    assert (c' = true) by (destruct c'; [reflexivity|vm_compute in T'; discriminate T']). subst c'.
    destruct (minimal_head w p' (k' ++ m' ++ ck') ltac:(lia) Mp') as [N' B'].
    assert (L' : zlen (k' ++ m' ++ ck') = 37) by (unfold zlen; rewrite !app_length, Lk', Lc', Lm'; reflexivity). rewrite L' in B'.
    set (d' := p' ++ k' ++ m' ++ ck') in *. clearbody d'. assert (P37 : 0 < 256 ^ 37) by reflexivity.
    pose proof (read_value _ _ R') as VE'. assert (VT : value_of (y1 ++ s ++ y2) = be_value d').
    { clear - VE' B' P37 Hw. set (q := 256 ^ 37) in *. clearbody q. nia. } 
    rewrite <- VT in B'. clear VE' VT.
    destruct y1 as [|x y1].
    { exfalso. destruct NY as [NY|NY]; [congruence|]. cbn [app] in E0'. exact (C106_wif_behind s y2 w _ _ ltac:(lia) NY E E0'). }
    assert (Ix : In x bitcoin_alphabet) by (inversion O1; assumption).
    assert (D1 : digit_of bitcoin_alphabet x <> 0).
    { intros D. apply N'. apply (read_first_letter x (y1 ++ s ++ y2) d' D). exact R'. }
    pose proof (digit_range x Ix) as DR.
    assert (W4 : 0 <= value_of (y1 ++ s ++ y2)) by (apply value_nonneg; inversion O; assumption).
    pose proof (value_cons x (y1 ++ s ++ y2)) as C. cbn [app] in B'. rewrite C in B'.
    assert (Y : zlen (y1 ++ s ++ y2) < 52).
    { apply (Z.pow_lt_mono_r_iff 58); [lia|lia|]. assert (X : 256 * 256 ^ 37 <= 58 ^ 52) by (vm_compute; discriminate).
      assert (PR : 0 < 58 ^ zlen (y1 ++ s ++ y2)) by (apply Z.pow_pos_nonneg; unfold zlen; lia). set (A := 58 ^ zlen (y1 ++ s ++ y2)) in *. set (F := 58 ^ 52) in *. set (q := 256 ^ 37) in *.
      set (D := digit_of bitcoin_alphabet x) in *. clearbody A F q D. clear - B' X W4 D1 DR PR P37 Hw.
      assert (A * 1 <= D * A) by nia. assert ((w + 1) * q <= 256 * q) by nia. lia. }
    assert (y1 = [] /\ y2 = []) as [-> ->].
    { unfold zlen in Y. rewrite !app_length, LS in Y. destruct y1, y2; cbn [List.length] in Y; try (exfalso; lia). split; reflexivity. }
    rewrite !app_nil_r in *. cbn [app] in *. unfold zlen in B'. rewrite LS in B'. change (Z.of_nat 51) with 51 in B'.
    destruct (table_cases w x Hw Ix) as [(T & _)|(_ & [D0|M])].
    + apply listed_spec in T. destruct T as (c & I1 & H). exists c. split; [exact I1|]. rewrite H. reflexivity.
    + contradiction.
    + exfalso. apply orb_true_iff in M. set (DF := digit_of bitcoin_alphabet x * 58 ^ 51) in *. clearbody DF. clear - M B B'. destruct M as [M|M]; apply Z.leb_le in M; lia.
  - intros (c & I1 & ->). assert (exists x, str c = [x]) as (x & Hx).
    { clear - I1. cbn in I1. repeat (destruct I1 as [I1|I1]; [injection I1 as _ <-; eexists; reflexivity|]). destruct I1. }
    rewrite Hx in *. cbn [app] in *. assert (Ix : In x bitcoin_alphabet) by (inversion O; assumption).
    assert (Os : over bitcoin_alphabet s) by (inversion O; assumption).
    assert (LT : listed w x = true) by (apply listed_spec; exists c; auto).
    destruct (table_cases w x Hw Ix) as [(_ & F & D1)|(T & _)]; [|congruence]. exact (wif_letter w x s k ck Hw Ix D1 F Os E).
Qed.
(** and what encrypt does with them: what it does with the WIF of another key, compressed *)
Theorem C106_encrypt_in_front : forall P self network w a c s k ck, prims_ok P -> session self network w a -> 30 <= w <= 255 ->
  In (w, c) letters_in_front -> over bitcoin_alphabet s -> decode_wif s w = Ok (k, str "wif", ck) ->
  exists k' s', List.length k' = 32%nat /\ wif_text P w true k' s' /\
    forall pw, encrypt P self (str c ++ s)%list pw network = encrypt P self s' pw network.
Proof.
  intros P self network w a c s k ck HP HS Hw J O E. assert (Oc : over bitcoin_alphabet (str c)).
  { clear - J. cbn in J. repeat (destruct J as [J|J]; [injection J as _ <-; constructor; [cbn; tauto|constructor]|]). destruct J. }
  assert (NE : str c <> []).
  { clear - J. cbn in J. repeat (destruct J as [J|J]; [injection J as _ <-; discriminate|]). destruct J. }
  destruct (proj2 (C106_wif_in_front w s (str c ++ s)%list k ck Hw ltac:(apply Forall_app; split; assumption)
    ltac:(exists (str c), []; split; [left; exact NE|rewrite app_nil_r; reflexivity]) E)) as (k' & ck' & E'); [exists c; auto|].
  assert (L : List.length k' = 32%nat).
  { pose proof E' as E2. apply (C09_decode_wif_exact _ w _ _ _ ltac:(lia)) in E2. destruct E2 as (raw & c' & _ & _ & (p & m & _ & L & _)). exact L. }
  exists k', (wif_of P w true k'). split; [exact L|]. split; [apply wif_of_text; lia|]. intros pw.
  destruct (session_net_sel _ _ _ _ HS) as (n & N). rewrite !(encrypt_eq P HP _ _ _ _ _ _ _ N), E'.
  rewrite (decode_wif_of P w true k' HP ltac:(lia) L). reflexivity.
Qed.

(** decode: never the bytes of a text for a text that contains it *)
Theorem C106_decode : forall s t d d', within s t ->
  decode s bitcoin_alphabet = Ok d -> decode t bitcoin_alphabet = Ok d' -> be_value d <> 0 -> d' <> d.
Proof. intros s t d d' W R R'. apply reads_code in R, R'. exact (C106_read s t d d' W R R'). Qed.
