(** * C87: the programs in /repo/examples, and their results as JSON *)
From Coq Require Import Lia ZifyBool ZifyNat ZifyN.
From Coq Require Import DecimalPos DecimalString.
From Verif Require Import Exceptions ErrorFacts Py Prims Const Spec PyFacts Utils UtilsFacts Base58 Crypto
  Curve SpecCurve Secp256k1 Cryptocurrencies Wif Bip38 SpecBip38 SpecRecords SpecSession SpecJson ExampleScripts
  CodecFacts2 Bip38Facts Bip38Facts2 Sessions RecordFacts ECFacts PropLotText PropDigits PropEncrypt PropIntermediate PropDecrypt PropCreate PropEC PropOutcome.

(** ** JSON texts are read as what was written *)
Lemma hex_digit_value d : (d < 16)%N -> hex_value (hex_digit d) = Some d.
Proof.
  intros H. unfold hex_digit, hex_value. destruct (N.ltb_spec d 10).
  - replace ((48 <=? 48 + d)%N && (48 + d <=? 57)%N) with true by lia. f_equal. lia.
  - replace ((48 <=? 87 + d)%N && (87 + d <=? 57)%N) with false by lia.
    replace ((97 <=? 87 + d)%N && (87 + d <=? 102)%N) with true by lia. f_equal. lia.
Qed.
Lemma read_u n r : (n < 65536)%N -> read_units (u_escape n ++ r)%list = with_unit n (read_units r).
Proof.
  intros H. unfold u_escape. cbn [app read_units N.eqb Pos.eqb].
  unfold hex4_value. rewrite !hex_digit_value by (apply N.mod_lt; discriminate). f_equal.
  pose proof (N.div_mod n 16 ltac:(lia)). pose proof (N.div_mod (n / 16) 16 ltac:(lia)). pose proof (N.div_mod (n / 16 / 16) 16 ltac:(lia)).
  rewrite !N.div_div in * by lia. change (16 * 16)%N with 256%N in *. change (256 * 16)%N with 4096%N in *.
  rewrite (N.mod_small (n / 4096)) by (apply N.div_lt_upper_bound; lia). lia.
Qed.
Definition units_of (c : N) : pystr := (if c <? 0x10000 then [c] else [0xD800 + (c - 0x10000) / 1024; 0xDC00 + (c - 0x10000) mod 1024])%N.
Lemma read_escape c r us t : (c <= 0x10FFFF)%N -> read_units r = Some (us, t) -> read_units (escape c ++ r)%list = Some (units_of c ++ us, t)%list.
Proof.
  intros H R. unfold escape, units_of.
  destruct (N.eqb_spec c 34) as [->|]; [cbn -[read_units]; cbn [read_units N.eqb Pos.eqb short_escape]; rewrite R; reflexivity|].
  destruct (N.eqb_spec c 92) as [->|]; [cbn -[read_units]; cbn [read_units N.eqb Pos.eqb short_escape]; rewrite R; reflexivity|].
  destruct (N.eqb_spec c 10) as [->|]; [cbn -[read_units]; cbn [read_units N.eqb Pos.eqb short_escape]; rewrite R; reflexivity|].
  destruct (N.eqb_spec c 13) as [->|]; [cbn -[read_units]; cbn [read_units N.eqb Pos.eqb short_escape]; rewrite R; reflexivity|].
  destruct (N.eqb_spec c 9) as [->|]; [cbn -[read_units]; cbn [read_units N.eqb Pos.eqb short_escape]; rewrite R; reflexivity|].
  destruct (N.eqb_spec c 12) as [->|]; [cbn -[read_units]; cbn [read_units N.eqb Pos.eqb short_escape]; rewrite R; reflexivity|].
  destruct (N.eqb_spec c 8) as [->|]; [cbn -[read_units]; cbn [read_units N.eqb Pos.eqb short_escape]; rewrite R; reflexivity|].
  destruct ((32 <=? c)%N && (c <=? 126)%N) eqn:Q.
  - replace (c <? 65536)%N with true by lia. cbn [app read_units]. replace (c =? 34)%N with false by lia. replace (c =? 92)%N with false by lia.
    replace (c <? 32)%N with false by lia. rewrite R. reflexivity.
  - destruct (N.ltb_spec c 65536).
    + rewrite read_u by assumption. rewrite R. reflexivity.
    + assert (D : ((c - 65536) / 1024 < 1024)%N) by (apply N.div_lt_upper_bound; lia). rewrite (N.mod_small ((c - 65536) / 1024)) by exact D.
      pose proof (N.mod_lt (c - 65536) 1024 ltac:(lia)).
      rewrite <- app_assoc, read_u by lia. rewrite read_u by lia. rewrite R. reflexivity.
Qed.
Lemma unicode_bound c : (c < 0xD800 \/ 0xE000 <= c <= 0x10FFFF)%N -> (c <= 0x10FFFF)%N.
Proof. lia. Qed.
Lemma join_text s : unicode_text s -> join_units (List.concat (List.map units_of s)) = s.
Proof.
  induction 1 as [|c s H _ IH]; [reflexivity|]. cbn [List.map List.concat]. unfold units_of at 1. destruct (N.ltb_spec c 0x10000) as [L|L].
  - cbn [app]. remember (List.concat (List.map units_of s)) as t eqn:Et. destruct t as [|w t]; cbn [join_units].
    + cbn [join_units] in IH. congruence.
    + replace (high c) with false by (unfold high; lia). cbn [andb]. f_equal. exact IH.
  - cbn [app join_units]. assert (D : ((c - 65536) / 1024 < 1024)%N) by (apply N.div_lt_upper_bound; lia). pose proof (N.mod_lt (c - 65536) 1024 ltac:(lia)).
    replace (high _) with true by (unfold high; lia). replace (low _) with true by (unfold low; lia). cbn [andb].
    rewrite IH. f_equal. pose proof (N.div_mod (c - 65536) 1024 ltac:(lia)). lia.
Qed.
Lemma read_text s r : unicode_text s -> read_string (List.concat (List.map escape s) ++ 34%N :: r)%list = Some (s, r).
Proof.
  intros H. unfold read_string.
  assert (E : read_units (List.concat (List.map escape s) ++ 34%N :: r)%list = Some (List.concat (List.map units_of s), r)).
  { clear - H. induction H as [|c s H _ IH]; [reflexivity|]. cbn [List.map List.concat]. rewrite <- app_assoc. apply read_escape; [apply unicode_bound, H|exact IH]. }
  rewrite E, (join_text s H). reflexivity.
Qed.
(** characters that end an integer *)
Definition ends (r : pystr) : Prop := match r with [] => True | c :: _ => (c < 48 \/ 57 < c)%N /\ one_of (str ".eE") c = false end.
Lemma digits_read l r : Forall (fun d => 0 <= d <= 9) l -> ends r -> read_digits (List.map (fun d => (48 + Z.to_N d)%N) l ++ r)%list = (l, r).
Proof.
  intros F E. induction F as [|d l H _ IH].
  - cbn [List.map app]. destruct r as [|c r]; [reflexivity|]. cbn [read_digits]. destruct E as [E _]. replace ((48 <=? c)%N && (c <=? 57)%N) with false by lia. reflexivity.
  - cbn [List.map app read_digits]. rewrite IH. replace ((48 <=? 48 + Z.to_N d)%N && (48 + Z.to_N d <=? 57)%N) with true by lia.
    f_equal. f_equal. lia.
Qed.
Lemma natural_read p r : ends r -> read_natural (List.map (fun d => (48 + Z.to_N d)%N) (dl (Pos.to_uint p)) ++ r)%list = Some (Z.pos p, r).
Proof.
  intros E. unfold read_natural. rewrite digits_read by (apply dl_range || exact E). destruct (uint_head p) as (d & l & D & Hd).
  pose proof (value (Pos.to_uint p)) as V. rewrite DecimalPos.Unsigned.of_to in V. cbn [Z.of_N] in V. unfold decimal_value in V. rewrite D in *.
  replace (d =? 0) with false by lia. cbn [andb orb].
  replace (match r with c :: _ => one_of (str ".eE") c | [] => false end) with false by (destruct r as [|c r]; [|destruct E as [_ ->]]; reflexivity).
  f_equal. f_equal. symmetry. exact V.
Qed.
Lemma not_null c s : c <> 110%N -> str_eqb (firstn 4 (c :: s)) (str "null") = false.
Proof. intros H. destruct (str_eqb _ _) eqn:E; [|reflexivity]. apply str_eqb_spec in E. cbn [firstn] in E. exfalso. apply H. injection E. trivial. Qed.
Lemma scalar_read v r : unicode_scalar v -> ends r -> read_scalar (dumps_scalar v ++ r)%list = Some (v, r).
Proof.
  intros H E. destruct v as [s|z|]; cbn [dumps_scalar].
  - unfold dumps_text. cbn [app read_scalar N.eqb Pos.eqb]. rewrite <- app_assoc. cbn [app]. rewrite (read_text s r H). reflexivity.
  - destruct z as [|p|p].
    + rewrite dec_zero. cbn [app]. cbn [read_scalar]. rewrite not_null by discriminate. cbn [N.eqb Pos.eqb].
      unfold read_natural. change (48%N :: r) with (List.map (fun d => (48 + Z.to_N d)%N) [0] ++ r)%list.
      rewrite digits_read by ((repeat constructor; lia) || exact E). cbn [List.length Nat.ltb Nat.leb andb Z.eqb orb].
      replace (match r with c :: _ => one_of (str ".eE") c | [] => false end) with false by (destruct r as [|c r]; [|destruct E as [_ ->]]; reflexivity). reflexivity.
    + pose proof (natural_read p r E) as N. rewrite dec_pos. destruct (uint_head p) as (d & l & D & Hd). rewrite D in *. cbn [List.map app] in *.
      cbn [read_scalar]. rewrite not_null by lia. replace (48 + Z.to_N d =? 34)%N with false by lia. replace (48 + Z.to_N d =? 45)%N with false by lia.
      rewrite N. reflexivity.
    + rewrite dec_neg, dec_pos. cbn [app read_scalar]. rewrite not_null by discriminate. cbn [N.eqb Pos.eqb]. rewrite natural_read by exact E. reflexivity.
  - reflexivity.
Qed.
Lemma skip_space_value v r : skip_space (dumps_scalar v ++ r)%list = (dumps_scalar v ++ r)%list.
Proof.
  assert (K : forall c s, one_of [32; 9; 10; 13]%N c = false -> skip_space (c :: s) = c :: s) by (intros c s H; cbn [skip_space]; rewrite H; reflexivity).
  destruct v as [s|z|]; [apply K; reflexivity| |apply K; reflexivity]. destruct z as [|p|p]; cbn [dumps_scalar].
  - rewrite dec_zero. apply K. reflexivity.
  - rewrite dec_pos. destruct (uint_head p) as (d & l & -> & Hd). cbn [List.map app]. apply K. unfold one_of. cbn [existsb]. lia.
  - rewrite dec_neg. apply K. reflexivity.
Qed.
Definition unicode_member (m : pystr * jscalar) : Prop := unicode_text (fst m) /\ unicode_scalar (snd m).
Lemma member_read m r f : unicode_member m -> ends r -> read_members (S f) (dumps_member m ++ r)%list =
  match expect 44 r with
  | Some s => match read_members f s with Some (l, r) => Some (m :: l, r) | None => None end
  | None => match expect 125 r with Some r => Some ([m], r) | None => None end
  end.
Proof.
  intros [H1 H2] E. destruct m as [k v]. cbn [fst snd] in *. unfold dumps_member. cbn [fst snd].
  change ((10%N :: str "    " ++ dumps_text k ++ str ": " ++ dumps_scalar v) ++ r)%list with (10%N :: (str "    " ++ dumps_text k ++ str ": " ++ dumps_scalar v) ++ r)%list.
  rewrite <- !app_assoc. unfold dumps_text. cbn [app]. rewrite <- !app_assoc. cbn [app].
  cbn [read_members]. 
  assert (E1 : forall s, expect 34 (10%N :: str "    " ++ 34%N :: s)%list = Some s) by (intros; reflexivity). rewrite E1. clear E1.
  rewrite (read_text k _ H1).
  assert (E2 : forall s, expect 58 (str ": " ++ s)%list = Some (32%N :: s)) by (intros; reflexivity). rewrite E2. clear E2.
  change (skip_space (32%N :: dumps_scalar v ++ r)%list) with (skip_space (dumps_scalar v ++ r)%list). rewrite skip_space_value, (scalar_read v r H2 E). reflexivity.
Qed.
Lemma members_read l : Forall unicode_member l -> l <> [] -> forall f r, (List.length l <= f)%nat ->
  read_members f (dumps_members l ++ 10%N :: 125%N :: r)%list = Some (l, r).
Proof.
  induction 1 as [|m l H F IH]; intros N f r L; [congruence|]. cbn [List.length] in L. destruct f as [|f]; [lia|]. destruct l as [|m' l].
  - cbn [dumps_members]. rewrite member_read; [reflexivity|exact H|]. cbn. split; [left; reflexivity|reflexivity].
  - change (dumps_members (m :: m' :: l)) with (dumps_member m ++ 44%N :: dumps_members (m' :: l))%list. rewrite <- app_assoc. rewrite member_read; [|exact H|cbn; split; [left; reflexivity|reflexivity]].
    change (expect 44 ((44%N :: dumps_members (m' :: l)) ++ 10%N :: 125%N :: r)%list) with (Some (dumps_members (m' :: l) ++ 10%N :: 125%N :: r)%list). cbv iota beta.
    rewrite IH by (discriminate || lia). reflexivity.
Qed.
Lemma members_length l : (List.length l <= List.length (dumps_members l))%nat.
Proof.
  induction l as [|m l IH]; [reflexivity|]. destruct l as [|m' l]; [unfold dumps_members, dumps_member; cbn [List.length]; lia|].
  change (dumps_members (m :: m' :: l)) with (dumps_member m ++ 44%N :: dumps_members (m' :: l))%list. rewrite app_length. cbn [List.length] in *. lia.
Qed.
Definition unicode_json (j : json) : Prop :=
  match j with JScalar v => unicode_scalar v | JObject l => Forall unicode_member l end.
(** Any dictionary from texts to texts, integers and None, and any text: *)
Theorem C87_json : forall j, unicode_json j -> read_json (dumps j) = Some j.
Proof.
  intros [v|l] H; cbn [unicode_json dumps] in *.
  - unfold read_json. pose proof (skip_space_value v []) as K. pose proof (scalar_read v [] H I) as R. rewrite app_nil_r in *.
    assert (E : expect 123 (dumps_scalar v) = None).
    { unfold expect. rewrite K. destruct v as [s|z|]; [reflexivity| |reflexivity]. destruct z as [|p|p]; cbn [dumps_scalar].
      - rewrite dec_zero. reflexivity.
      - rewrite dec_pos. destruct (uint_head p) as (d & l & -> & Hd). cbn [List.map]. replace (48 + Z.to_N d =? 123)%N with false by lia. reflexivity.
      - rewrite dec_neg. reflexivity. }
    rewrite E, K, R. reflexivity.
  - destruct l as [|m l]; [reflexivity|]. set (L := m :: l) in *. unfold read_json.
    change (expect 123 (123%N :: dumps_members L ++ [10%N; 125%N])%list) with (Some (dumps_members L ++ [10%N; 125%N])%list). cbv iota beta.
    assert (E : expect 125 (dumps_members L ++ [10%N; 125%N])%list = None).
    { subst L. destruct l; reflexivity. }
    rewrite E, (members_read L H) by (discriminate || (cbn [List.length]; rewrite app_length; pose proof (members_length L); lia)). reflexivity.
Qed.

(** ** What the methods return *)
Lemma letter_unicode A d : unicode_text A -> (letter A d < 0xD800 \/ 0xE000 <= letter A d <= 0x10FFFF)%N.
Proof.
  intros H. unfold letter. destruct (nth_in_or_default (Z.to_nat d) A 0%N) as [I| ->]; [|lia].
  apply (proj1 (Forall_forall _ _) H _ I).
Qed.
Lemma alphabet_unicode : unicode_text bitcoin_alphabet.
Proof.
  assert (G : forallb (fun c => (c <? 0xD800)%N) bitcoin_alphabet = true) by (vm_compute; reflexivity). rewrite forallb_forall in G.
  apply Forall_forall. intros c I. specialize (G c I). lia.
Qed.
Lemma base_text_unicode d s : base_text bitcoin_alphabet d s -> unicode_text s.
Proof.
  intros (k & body & ds & _ & _ & _ & _ & ->). apply Forall_app. split.
  - apply Forall_forall. intros c I. apply repeat_spec in I. subst c. apply letter_unicode, alphabet_unicode.
  - apply Forall_forall. intros c I. apply in_map_iff in I. destruct I as (x & <- & _). apply letter_unicode, alphabet_unicode.
Qed.
Lemma hex_unicode b : unicode_text (hex b).
Proof.
  unfold hex, tohex. apply Forall_forall. intros c I. apply in_flat_map in I. destruct I as (x & _ & I).
  pose proof (N.mod_lt (Byte.to_N x) 16 ltac:(lia)). pose proof (Byte.to_N_bounded x).
  assert ((Byte.to_N x / 16 < 16)%N) by (apply N.div_lt_upper_bound; lia).
  left. destruct I as [<-|[<-|[]]]; unfold hexdigit; match goal with |- context [(?z <? 10)%N] => destruct (N.ltb_spec z 10) end; lia.
Qed.
Lemma wif_name_unicode c : unicode_text (wif_name c).
Proof. destruct c; cbn; repeat constructor; left; reflexivity. Qed.
Lemma key_name_unicode c : unicode_text (key_name c).
Proof. destruct c; cbn; repeat constructor; left; reflexivity. Qed.
Lemma address_unicode P a c x y s : address_text P bitcoin_alphabet a c x y s -> unicode_text s.
Proof. intros (pre & ser & _ & _ & T). apply (base_text_unicode _ _ T). Qed.
Lemma key_address_unicode P a c k s : key_address P a c k s -> unicode_text s.
Proof. intros (e & x & y & _ & _ & T). apply (address_unicode _ _ _ _ _ _ T). Qed.
Lemma wif_unicode P w c k s : wif_text P w c k s -> unicode_text s.
Proof. intros (pre & _ & T). apply (base_text_unicode _ _ T). Qed.
Lemma keyword (s : string) : forallb (fun c => (c <? 128)%N) (str s) = true -> unicode_text (str s).
Proof. intros G. rewrite forallb_forall in G. apply Forall_forall. intros c I. specialize (G c I). lia. Qed.
Ltac members := repeat (apply Forall_cons; [split; cbn [fst snd unicode_scalar]; [apply keyword; reflexivity|]|]); [..|apply Forall_nil].

(** Whatever the methods return, its JSON text is read as the same dictionary. *)
Theorem C87_results : forall P self network w a, prims_ok P -> session self network w a ->
  (forall random code t arg r, create_new_encrypted_wif P random self code t arg network = Ok r ->
     read_json (dumps (new_wif_json r)) = Some (new_wif_json r)) /\
  (forall pw s detail r, confirm_code P self pw s network detail = Ok r -> read_json (dumps (confirm_json r)) = Some (confirm_json r)) /\
  (forall pw s detail r, decrypt P self s pw network detail = Ok r -> read_json (dumps (decrypt_json r)) = Some (decrypt_json r)).
Proof.
  intros P self network w a HP HS. split; [|split].
  - intros random code t arg r E. apply C87_json.
    assert (A : exists seed, argument_bytes random arg seed).
    { destruct (entropy_arg random arg) as [seed|ex] eqn:F; [exists seed; apply argument_entropy, F|].
      destruct (session_net_sel _ _ _ _ HS) as (n & N). rewrite (create_eq P HP _ _ _ _ _ _ _ _ _ N), F in E. discriminate. }
    destruct A as (seed & A). destruct (C28_output P random self network w a code t arg seed r HP HS A E)
      as (lot & c & ent & pp & px & py & e & x & y & ser & tail & tail' & _ & _ & _ & _ & _ & _ & _ & E1 & E2 & _ & E3 & T & T1 & _ & T2 & _).
    cbn [unicode_json new_wif_json]. members.
    + apply (base_text_unicode _ _ T1).
    + apply (base_text_unicode _ _ T2).
    + rewrite E1. apply hex_unicode.
    + rewrite E3. apply hex_unicode.
    + rewrite E2. apply key_name_unicode.
    + apply (address_unicode _ _ _ _ _ _ T).
  - assert (D : forall pw s d, confirm_code P self pw s network true = Ok (CDetail d) -> unicode_json (confirm_json (CDetail d))).
    { intros pw s d E. destruct (C27_confirm_sound P self network w a s pw d HP HS E)
        as (f & ah & ent & tail & lot & c & pwb & e & bx & by_ & x & y & ser & _ & _ & _ & _ & _ & _ & _ & _ & _ & E1 & E2 & T & _).
      cbn [unicode_json confirm_json]. members.
      - rewrite E1. apply hex_unicode.
      - rewrite E2. apply key_name_unicode.
      - apply (address_unicode _ _ _ _ _ _ T).
      - destruct (c_lot d); exact I.
      - destruct (c_sequence d); exact I. }
    intros pw s detail r E. apply C87_json. pose proof (C17_confirm_detail P self network s pw HP (session_constructed _ _ _ _ HS)) as C.
    destruct (confirm_code P self pw s network true) as [[x|d]|ex] eqn:E1; [contradiction| |].
    + specialize (D pw s d E1). destruct detail.
      * rewrite E1 in E. injection E as <-. exact D.
      * rewrite C in E. injection E as <-. cbn [confirm_json unicode_json unicode_scalar].
        cbn [confirm_json unicode_json] in D. inversion_clear D as [|? ? _ D']. inversion_clear D' as [|? ? _ D]. inversion_clear D as [|? ? D' _]. apply D'.
    + destruct detail; congruence.
  - assert (D : forall pw s d, decrypt P self s pw network true = Ok (DDetail d) -> unicode_json (decrypt_json (DDetail d)) /\ unicode_text (d_wif d)).
    { intros pw s d E. destruct (C16_decrypt_sound P self network w a s pw d HP HS E) as (raw & k & c & R & _ & (W & E1 & E2 & E3 & KA & e & x & y & ser & _ & _ & _ & E4) & _).
      assert (SD : unicode_scalar (optional_text (d_seed d))).
      { destruct (C16_decrypt_sound_mode P self network w a s pw d raw HP HS E R) as [(_ & _ & -> & _)|(_ & lot & pwb & seed & e1 & e2 & k' & _ & -> & _)]; [exact I|apply hex_unicode]. }
      pose proof (wif_unicode _ _ _ _ _ W). split; [|assumption]. cbn [unicode_json decrypt_json]. members.
      - assumption.
      - rewrite E1. apply hex_unicode.
      - rewrite E2. apply wif_name_unicode.
      - rewrite E4. apply hex_unicode.
      - rewrite E3. apply key_name_unicode.
      - exact SD.
      - apply (key_address_unicode _ _ _ _ _ KA).
      - destruct (d_lot d); exact I.
      - destruct (d_sequence d); exact I. }
    intros pw s detail r E. apply C87_json. pose proof (C17_decrypt_detail P self network s pw HP (session_constructed _ _ _ _ HS)) as C.
    destruct (decrypt P self s pw network true) as [[x|d]|ex] eqn:E1; [contradiction| |].
    + destruct (D pw s d E1) as [D1 D2]. destruct detail; [rewrite E1 in E; injection E as <-; exact D1|rewrite C in E; injection E as <-; exact D2].
    + destruct detail; congruence.
Qed.

(** ** The scripts *)
Lemma script_session coin n w a : coin_ok coin -> dict_get n (c_networks coin) = Some (w, a) ->
  exists self, bip38_init (CoinClass coin) n = Ok self /\ session self None w a.
Proof.
  intros H D. assert (I : exists self, bip38_init (CoinClass coin) n = Ok self).
  { unfold bip38_init. rewrite (proj2 (str_in_spec _ _)); [eexists; reflexivity|]. apply in_map_iff. exists (n, (w, a)). split; [reflexivity|apply dict_get_in, D]. }
  destruct I as [self I]. exists self. split; [exact I|]. exists coin, n. auto.
Qed.

(** The two scripts without EC multiplication, for any constants: they print the
    encrypted key and then, as JSON, the WIF they started from, its key, public key and
    address.  The conditions on bytes are those of C12 and C76. *)
Theorem C87_plain_script : forall P coin n w a c k wif pw pwb address, prims_ok P -> coin_ok coin -> dict_get n (c_networks coin) = Some (w, a) ->
  List.length k = 32%nat -> wif_text P w c k wif -> passphrase_bytes P pw pwb -> key_address P a c k address ->
  first_byte k <> x00 -> nth 0 k x00 <> nth 0 (strong_kdf P pwb (address_hash P address)) x00 ->
  nth 16 k x00 <> nth 16 (strong_kdf P pwb (address_hash P address)) x00 ->
  exists e x y ser encrypted t u,
    scalar k e /\ public_point e x y /\ serialised c x y ser /\ plain_encrypted P a c k pw encrypted /\
    no_ec_example P coin n pw wif true = ([str "BIP38 Encrypted WIF: " ++ encrypted ++ [10%N]; str "BIP38 Decrypted: " ++ t ++ [10%N]], None)%list /\
    read_json t = Some (JObject
      [(str "wif", JText wif); (str "private_key", JText (hex k)); (str "wif_type", JText (wif_name c));
       (str "public_key", JText (hex ser)); (str "public_key_type", JText (key_name c)); (str "seed", JNull);
       (str "address", JText address); (str "lot", JNull); (str "sequence", JNull)]) /\
    no_ec_example P coin n pw wif false = ([str "BIP38 Encrypted WIF: " ++ encrypted ++ [10%N]; str "BIP38 Decrypted: " ++ u ++ [10%N]], None)%list /\
    read_json u = Some (JScalar (JText wif)).
Proof.
  intros P coin n w a c k wif pw pwb address HP HC D L W B KA Z Z0 Z1. destruct (script_session coin n w a HC D) as (self & I & HS).
  destruct (session_net_sel _ _ _ _ HS) as (n' & N). pose proof (ns_a _ _ _ _ _ N) as Ha.
  assert (E : exists t, encrypt P self wif pw None = Ok t).
  { pose proof KA as (e0 & _ & _ & K0 & _). apply (proj1 (C13_encrypt_succeeds_iff P self None w a c k e0 wif pw pwb address HP HS K0 W B KA)). auto. }
  destruct E as (t & E). destruct (C12_roundtrip P self None w a c k wif pw t HP HS L W E Z) as (D0 & d & D1 & Ew & Dd & S1 & S2 & S3).
  pose proof (C14_encrypt_wif _ _ _ _ _ _ _ _ _ _ HP HS L W E) as R.
  pose proof Dd as (_ & E1 & E2 & E3 & KA' & e & x & y & ser & Q1 & Q2 & Q3 & Q4).
  assert (EA : d_address d = address). { apply key_address_iff in KA, KA'; trivial. destruct KA as [_ ->], KA' as [_ ->]. reflexivity. }
  destruct (C87_results P self None w a HP HS) as (_ & _ & J). pose proof (J _ _ _ _ D1) as J1. pose proof (J _ _ _ _ D0) as J0.
  exists e, x, y, ser, t, (dumps (decrypt_json (DDetail d))), (dumps (decrypt_json (DWif wif))).
  split; [exact Q1|]. split; [exact Q2|]. split; [exact Q3|]. split; [exact R|]. unfold no_ec_example, attempt. rewrite I, E, D1, D0.
  split; [reflexivity|]. split; [|split; [reflexivity|exact J0]].
  rewrite J1. cbn [decrypt_json]. rewrite Ew, E1, E2, E3, Q4, S1, S2, S3, EA. reflexivity.
Qed.

(** The four scripts with EC multiplication, for any constants.  [lots] is None, or the
    lot and sequence numbers.  When the script gets as far as printing the encrypted
    key (C77 and C78 say when), it goes on to the end unless one of five bytes is zero
    (C25, C26), and what it prints about the key, as JSON, agrees: *)
Definition number (o : option Z) : jscalar := match o with Some z => JInt z | None => JNull end.
Theorem C87_ec_script : forall P random_salt random_seed coin n w a c pw pwb salt_arg salt seed_arg seed lots ent k S address e bx by_ B detail out x,
  prims_ok P -> coin_ok coin -> dict_get n (c_networks coin) = Some (w, a) ->
  argument_bytes random_salt salt_arg salt -> argument_bytes random_seed seed_arg seed -> List.length seed = 24%nat ->
  match lots with
  | Some (l, q) => 100000 <= l <= 999999 /\ 1 <= q <= 4095 /\ (List.length salt = 4%nat \/ List.length salt = 8%nat) /\ lot_entropy (slice 0 4 salt) l q ent
  | None => List.length salt = 8%nat /\ ent = salt
  end ->
  let lot := match lots with Some _ => true | None => false end in
  passphrase_bytes P pw pwb -> ec_private_key P lot pwb ent seed k -> key_address P a c k address ->
  seed_mask P lot pwb ent (address_hash P address) S -> scalar (sha256d P seed) e -> public_point e bx by_ -> sec1_compressed bx by_ B ->
  first_byte seed <> x00 -> nth 8 (seed_block_1 P S seed) x00 <> x00 -> first_byte k <> x00 -> nth 1 B x00 <> x00 -> nth 17 B x00 <> x00 ->
  ec_example P random_salt random_seed coin n pw salt_arg seed_arg (wif_name c) (option_map fst lots) (option_map snd lots) detail = (out, x) ->
  (2 <= List.length out)%nat ->
  exists ke kx ky ser code encrypted confirmation wif t1 t2 t3,
    scalar k ke /\ public_point ke kx ky /\ serialised c kx ky ser /\ passphrase_code P lot ent pw code /\ wif_text P w c k wif /\
    x = None /\
    out = [str "Intermediate Passphrase: " ++ code ++ [10%N]; str "Encrypted WIF: " ++ t1 ++ [10%N];
           str "Confirm Code: " ++ t2 ++ [10%N]; str "BIP38 Decrypted: " ++ t3 ++ [10%N]]%list /\
    read_json t1 = Some (JObject
      [(str "encrypted_wif", JText encrypted); (str "confirmation_code", JText confirmation); (str "public_key", JText (hex ser));
       (str "seed", JText (hex seed)); (str "public_key_type", JText (key_name c)); (str "address", JText address)]) /\
    read_json t2 = Some (if detail then JObject
      [(str "public_key", JText (hex ser)); (str "public_key_type", JText (key_name c)); (str "address", JText address);
       (str "lot", number (option_map fst lots)); (str "sequence", number (option_map snd lots))]
      else JScalar (JText address)) /\
    read_json t3 = Some (if detail then JObject
      [(str "wif", JText wif); (str "private_key", JText (hex k)); (str "wif_type", JText (wif_name c));
       (str "public_key", JText (hex ser)); (str "public_key_type", JText (key_name c)); (str "seed", JText (hex seed));
       (str "address", JText address); (str "lot", number (option_map fst lots)); (str "sequence", number (option_map snd lots))]
      else JScalar (JText wif)).
Proof.
  intros P random_salt random_seed coin n w a c pw pwb salt_arg salt seed_arg seed lots ent k S address e bx by_ B detail out x
    HP HC D A1 A2 Ls HL lot Hpw PK KA SM Se Qe SB Z1 Z2 Z3 Z4 Z5 R Lo.
  destruct (script_session coin n w a HC D) as (self & I & HS). unfold ec_example, attempt in R. rewrite I in R.
  destruct (session_net_sel _ _ _ _ HS) as (n' & N). pose proof (ns_a _ _ _ _ _ N) as Ha.
  destruct (intermediate_code P random_salt pw (option_map fst lots) (option_map snd lots) salt_arg) as [code|ex] eqn:EI;
    [|apply (f_equal fst) in R; cbn [fst] in R; subst out; cbn in Lo; lia].
  destruct (create_new_encrypted_wif P random_seed self code (wif_name c) seed_arg None) as [r|ex] eqn:EC;
    [|apply (f_equal fst) in R; cbn [fst] in R; subst out; cbn in Lo; lia].
  assert (T : List.length ent = 8%nat /\ passphrase_code P lot ent pw code).
  { unfold lot. destruct lots as [[l q]|]; cbn [option_map fst snd] in EI.
    - destruct HL as (Hl & Hq & HLs & LE). apply (C21_lot_code P random_salt salt_arg salt pw l q code HP A1 HLs Hl Hq) in EI.
      destruct EI as (ent' & LE' & T). assert (RG : 0 <= l * 4096 + q < 256 ^ 4) by (change (256 ^ 4) with 4294967296; lia).
      apply (lot_entropy_iff _ _ _ _ RG) in LE, LE'. subst ent ent'. split; [|exact T].
      rewrite app_length, z2be_length, slice_length by lia. lia.
    - destruct HL as (HLs & ->). split; [exact HLs|]. apply (C21_plain_code P random_salt salt_arg salt pw code HP A1 HLs), EI. }
  destruct T as [Le T].
  assert (EA : n_address r = address).
  { destruct (C24_key_exists P random_seed self None w a lot c ent pw pwb code seed_arg seed r HP HS A2 Le Hpw T EC) as (k' & S' & PK' & KA' & _).
    apply ec_private_key_iff in PK, PK'. destruct PK as (_ & _ & Ek), PK' as (_ & _ & Ek'). assert (k' = k) as -> by congruence.
    apply key_address_iff in KA, KA'; trivial. destruct KA as [_ ->], KA' as [_ ->]. reflexivity. }
  subst address.
  assert (DD : exists d, decrypt P self (n_encrypted_wif r) pw None true = Ok (DDetail d) /\
     decrypt P self (n_encrypted_wif r) pw None false = Ok (DWif (d_wif d)) /\
     describes P w a c k d /\ d_seed d = Some (n_seed r) /\ n_seed r = hex seed /\
     d_address d = n_address r /\ d_public_key d = n_public_key r /\ d_public_key_type d = n_public_key_type r /\
     d_lot d = option_map fst lots /\ d_sequence d = option_map snd lots).
  { unfold lot in *. destruct lots as [[l q]|]; cbn [option_map fst snd] in *.
    - destruct HL as (Hl & Hq & HLs & LE).
      apply (C24_roundtrip_lot P random_salt random_seed self None w a c pw pwb l q salt_arg salt ent code seed_arg seed r k S); assumption.
    - destruct HL as (HLs & ->).
      apply (C24_roundtrip_plain P random_salt random_seed self None w a c pw pwb salt_arg salt code seed_arg seed r k S); assumption. }
  assert (CC : confirm_code P self pw (n_confirmation_code r) None false = Ok (CAddress (n_address r)) /\
     exists d, confirm_code P self pw (n_confirmation_code r) None true = Ok (CDetail d) /\
     c_address d = n_address r /\ c_public_key d = n_public_key r /\ c_public_key_type d = n_public_key_type r /\
     c_lot d = option_map fst lots /\ c_sequence d = option_map snd lots).
  { unfold lot in *. destruct lots as [[l q]|]; cbn [option_map fst snd] in *.
    - destruct HL as (Hl & Hq & HLs & LE).
      apply (C26_confirm_lot P random_salt random_seed self None w a c pw l q salt_arg salt code seed_arg seed r e bx by_ B); assumption.
    - destruct HL as (HLs & ->).
      apply (C26_confirm_plain P random_salt random_seed self None w a c pw salt_arg salt code seed_arg seed r e bx by_ B); assumption. }
  destruct DD as (d & D1 & D0 & Dd & S1 & S2 & S3 & S4 & S5 & S6 & S7). destruct CC as (C0 & dc & C1 & U1 & U2 & U3 & U4 & U5).
  destruct Dd as (W & E1 & E2 & E3 & KA' & ke & kx & ky & ser & Q1 & Q2 & Q3 & Q4).
  destruct (C87_results P self None w a HP HS) as (J1 & J2 & J3).
  exists ke, kx, ky, ser, code, (n_encrypted_wif r), (n_confirmation_code r), (d_wif d), (dumps (new_wif_json r)),
    (dumps (confirm_json (if detail then CDetail dc else CAddress (n_address r)))), (dumps (decrypt_json (if detail then DDetail d else DWif (d_wif d)))).
  split; [exact Q1|]. split; [exact Q2|]. split; [exact Q3|]. split; [exact T|]. split; [exact W|].
  assert (C : confirm_code P self pw (n_confirmation_code r) None detail = Ok (if detail then CDetail dc else CAddress (n_address r))) by (destruct detail; assumption).
  assert (DX : decrypt P self (n_encrypted_wif r) pw None detail = Ok (if detail then DDetail d else DWif (d_wif d))) by (destruct detail; assumption).
  rewrite C, DX in R. pose proof (f_equal fst R) as R1. pose proof (f_equal snd R) as R2. cbn [fst snd] in R1, R2. clear R.
  split; [symmetry; exact R2|]. split; [rewrite <- R1; reflexivity|].
  rewrite (J1 _ _ _ _ _ EC), (J2 _ _ _ _ C), (J3 _ _ _ _ DX).
  split; [unfold new_wif_json; rewrite <- S4, Q4, S2, <- S5, E3; reflexivity|].
  split.
  - destruct detail; [|reflexivity]. cbn [confirm_json]. rewrite U1, U2, U3, U4, U5, <- S4, Q4, <- S5, E3. reflexivity.
  - destruct detail; [|reflexivity]. cbn [decrypt_json]. rewrite E1, E2, Q4, E3, S1, S2, S3, S6, S7. reflexivity.
Qed.
(** A script that makes an encrypted key prints it. *)
Lemma printed_two P rs rn coin n pw sa se t l q detail self code r out x : bip38_init (CoinClass coin) n = Ok self ->
  intermediate_code P rs pw l q sa = Ok code -> create_new_encrypted_wif P rn self code t se None = Ok r ->
  ec_example P rs rn coin n pw sa se t l q detail = (out, x) -> (2 <= List.length out)%nat.
Proof.
  intros I1 I2 I3 R. unfold ec_example, attempt in R. rewrite I1, I2, I3 in R. apply (f_equal fst) in R. cbn [fst] in R. subst out.
  destruct (confirm_code _ _ _ _ _ _); [destruct (decrypt _ _ _ _ _ _)|]; cbn [fst app List.length]; lia.
Qed.
