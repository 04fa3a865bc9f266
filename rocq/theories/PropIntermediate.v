(** * C21-C23, C43 (first half): intermediate_code (bip38.py) *)
From Coq Require Import Lia ZifyBool ZifyNat ZifyN.
From Verif Require Import Exceptions ErrorFacts Py Prims Const Spec PyFacts Utils UtilsFacts Base58 Base58Facts
  Curve SpecCurve CurveFacts Secp256k1 SecpFacts Cryptocurrencies Wif Bip38 SpecBip38 SpecRecords SpecSession
  CodecFacts CodecFacts2 Bip38Facts Bip38Facts2 Sessions RecordFacts Toy PropEncrypt.

Lemma Ok_inj {A} (a b : A) : Ok a = Ok b -> a = b.
Proof. congruence. Qed.
Lemma argument_entropy random arg b : argument_bytes random arg b <-> entropy_arg random arg = Ok b.
Proof.
  unfold argument_bytes, entropy_arg. split.
  - intros [[[->|[->|[->| ->]]] ->]|[[-> N]|(s & -> & N & F)]]; try reflexivity.
    + destruct b; [congruence|reflexivity].
    + destruct s; [congruence|]. unfold get_bytes. cbn [truthy negb]. rewrite F. reflexivity.
  - destruct arg as [|b'|s|t]; cbn [truthy].
    + intros H. left. split; [auto|congruence].
    + destruct b' as [|x b']; intros H; [left; split; [auto|congruence]|]. right. left. cbn in H. injection H as <-. split; [reflexivity|discriminate].
    + destruct s as [|x s]; intros H; [left; split; [auto|congruence]|]. right. right. unfold get_bytes in H. cbn [truthy negb] in H.
      destruct (fromhex (x :: s)) eqn:F; [|discriminate]. injection H as <-. exists (x :: s). split; [reflexivity|]. split; [discriminate|exact F].
    + destruct t; cbn; [discriminate|]. intros H. left. split; [auto|congruence].
Qed.
Lemma lot_entropy_iff salt4 lot sequence ent : 0 <= lot * 4096 + sequence < 256 ^ 4 ->
  (lot_entropy salt4 lot sequence ent <-> ent = salt4 ++ z2be 4 (lot * 4096 + sequence)).
Proof.
  intros R. split.
  - intros (ls & F & ->). rewrite (fixed_unique _ _ _ F). reflexivity.
  - intros ->. exists (z2be 4 (lot * 4096 + sequence)). split; [apply fixed_z2be, R|reflexivity].
Qed.
Lemma passphrase_code_iff P lot ent pw s : prims_ok P -> (passphrase_code P lot ent pw s <-> intermediate_result P lot pw ent = Ok s).
Proof.
  intros HP. unfold passphrase_code, intermediate_result, passphrase_bytes. split.
  - intros (pwb & e & x & y & B & S & Q & pp & SC & T). rewrite B. rewrite owner_factor_eq in S. destruct (scalar_be2z _ _ S) as [-> K]. cbv zeta.
    rewrite K. destruct (key_okb_range _ K) as [_ R]. apply public_point_iff in Q; [|exact R]. destruct (pubof_ok _ R) as (_ & _ & O).
    rewrite Q in *. rewrite (serialised_unique true {| pk_x := x; pk_y := y |} pp O SC) in T. rewrite (b58c_unique _ _ _ T). reflexivity.
  - destruct (utf8_encode (h_nfc P pw)) as [pwb|] eqn:B; [|discriminate]. cbv zeta. destruct (key_okb _) eqn:K; [|discriminate].
    intros E. apply Ok_inj in E. subst s. destruct (key_okb_range _ K) as [_ R]. destruct (pubof_ok _ R) as (_ & _ & O).
    exists pwb, (be2z (pass_factor P lot pwb ent)), (pk_x (pubof (be2z (pass_factor P lot pwb ent)))), (pk_y (pubof (be2z (pass_factor P lot pwb ent)))).
    split; [reflexivity|]. split; [rewrite owner_factor_eq; apply key_okb_spec, K|]. split; [apply pubof_public, R|].
    exists (ser true (pubof (be2z (pass_factor P lot pwb ent)))). split; [apply (ser_serialised true), O|apply b58c_text].
Qed.

(** ** C21: the code *)
Theorem C21_lot_code : forall P random arg salt pw lot sequence s, prims_ok P ->
  argument_bytes random arg salt -> List.length salt = 4%nat \/ List.length salt = 8%nat ->
  100000 <= lot <= 999999 -> 1 <= sequence <= 4095 ->
  (intermediate_code P random pw (Some lot) (Some sequence) arg = Ok s <->
   exists ent, lot_entropy (slice 0 4 salt) lot sequence ent /\ passphrase_code P true ent pw s).
Proof.
  intros P random arg salt pw lot sequence s HP A L H1 H2. apply argument_entropy in A.
  rewrite (intermediate_lot_eq P _ _ _ pw _ _ A L H1 H2). rewrite <- (passphrase_code_iff P true _ pw s HP).
  change (slice 0 4 salt) with (upto 4 salt). split.
  - intros H. eexists. split; [|exact H]. apply lot_entropy_iff; [cbn; lia|reflexivity].
  - intros (ent & E & H). apply lot_entropy_iff in E; [|cbn; lia]. rewrite <- E. exact H.
Qed.
Theorem C21_plain_code : forall P random arg salt pw s, prims_ok P ->
  argument_bytes random arg salt -> List.length salt = 8%nat ->
  (intermediate_code P random pw None None arg = Ok s <-> passphrase_code P false salt pw s).
Proof.
  intros P random arg salt pw s HP A L. apply argument_entropy in A. rewrite (passphrase_code_iff P false _ pw s HP).
  rewrite (intermediate_plain_eq P _ _ _ pw None None A) by auto. reflexivity.
Qed.
(** When it returns: the factor must be a valid private key, and the passphrase encodable. *)
Theorem C21_lot_outcome : forall P random arg salt pw pwb lot sequence ent, prims_ok P ->
  argument_bytes random arg salt -> List.length salt = 4%nat \/ List.length salt = 8%nat ->
  100000 <= lot <= 999999 -> 1 <= sequence <= 4095 -> lot_entropy (slice 0 4 salt) lot sequence ent ->
  passphrase_bytes P pw pwb ->
  ((exists e, scalar (owner_factor P true pwb ent) e) /\ exists s, intermediate_code P random pw (Some lot) (Some sequence) arg = Ok s) \/
  ((forall e, ~ scalar (owner_factor P true pwb ent) e) /\
   intermediate_code P random pw (Some lot) (Some sequence) arg = Raise (Lib CSecp256k1Error "Invalid private key bytes")).
Proof.
  intros P random arg salt pw pwb lot sequence ent HP A L H1 H2 LE B. apply argument_entropy in A. apply lot_entropy_iff in LE; [|cbn; lia].
  rewrite (intermediate_lot_eq P _ _ _ pw _ _ A L H1 H2). change (upto 4 salt) with (slice 0 4 salt). rewrite <- LE. rewrite owner_factor_eq.
  unfold passphrase_bytes in B. unfold intermediate_result. rewrite B. cbv zeta. destruct (key_okb _) eqn:K.
  - left. split; [eexists; apply key_okb_spec, K|eexists; reflexivity].
  - right. split; [|reflexivity]. intros e S. apply scalar_be2z in S. destruct S. congruence.
Qed.
Theorem C21_plain_outcome : forall P random arg salt pw pwb, prims_ok P ->
  argument_bytes random arg salt -> List.length salt = 8%nat -> passphrase_bytes P pw pwb ->
  ((exists e, scalar (owner_factor P false pwb salt) e) /\ exists s, intermediate_code P random pw None None arg = Ok s) \/
  ((forall e, ~ scalar (owner_factor P false pwb salt) e) /\
   intermediate_code P random pw None None arg = Raise (Lib CSecp256k1Error "Invalid private key bytes")).
Proof.
  intros P random arg salt pw pwb HP A L B. apply argument_entropy in A. rewrite owner_factor_eq.
  rewrite (intermediate_plain_eq P _ _ _ pw None None A) by auto.
  unfold passphrase_bytes in B. unfold intermediate_result. rewrite B. cbv zeta. destruct (key_okb _) eqn:K.
  - left. split; [eexists; apply key_okb_spec, K|eexists; reflexivity].
  - right. split; [|reflexivity]. intros e S. apply scalar_be2z in S. destruct S. congruence.
Qed.

(** ** C22: argument validation *)
Theorem C22_salt_length : forall P random arg salt pw lot sequence, argument_bytes random arg salt ->
  List.length salt <> 4%nat -> List.length salt <> 8%nat ->
  intermediate_code P random pw lot sequence arg = Raise (Lib CError (error_text "Invalid owner salt length" (str "'8', '16'") (dec (2 * zlen salt)))).
Proof.
  intros P random arg salt pw lot sequence A L4 L8. apply argument_entropy in A. unfold entropy_arg in A. unfold intermediate_code.
  rewrite A. cbn [bind]. destruct (Nat.eqb_spec (List.length salt) 4); [contradiction|]. destruct (Nat.eqb_spec (List.length salt) 8); [contradiction|]. cbn [orb negb].
  rewrite bytes_to_string_bytes. cbn [bind]. rewrite lib_error_list by discriminate. unfold zlen at 1. rewrite tohex_length.
  replace (Z.of_nat (2 * List.length salt)) with (2 * zlen salt) by (unfold zlen; lia).
  replace (quoted_list [dec 8; dec 16]) with (str "'8', '16'") by (vm_compute; reflexivity). reflexivity.
Qed.
Theorem C22_short_salt_needs_both : forall P random arg salt pw lot sequence, argument_bytes random arg salt ->
  List.length salt = 4%nat -> lot = None \/ sequence = None ->
  intermediate_code P random pw lot sequence arg = Raise (Lib CError (error_text "Invalid owner salt length for non lot/sequence" (str "16") (str "8"))).
Proof.
  intros P random arg salt pw lot sequence A L H. apply argument_entropy in A. unfold entropy_arg in A. unfold intermediate_code.
  rewrite A. cbn [bind]. rewrite L. cbn [Nat.eqb orb negb andb].
  replace (is_none lot || is_none sequence) with true; [rewrite bytes_to_string_bytes; cbn [bind]; rewrite lib_error_other; unfold zlen; rewrite tohex_length, L; change (Z.of_nat (2 * 4)) with 8; replace (dec 8) with (str "8") by (vm_compute; reflexivity); reflexivity|]. destruct H as [-> | ->]; [|destruct lot]; reflexivity.
Qed.
Theorem C22_one_missing : forall P random arg salt pw lot sequence n, argument_bytes random arg salt ->
  List.length salt = 8%nat -> n <> 0 -> lot = Some n /\ sequence = None \/ lot = None /\ sequence = Some n ->
  intermediate_code P random pw lot sequence arg =
    Raise (Lib CError (match lot with
                       | Some _ => str "Both lot & sequence are required got: (lot " ++ dec n ++ str ") & (sequence None)"
                       | None => str "Both lot & sequence are required got: (lot None) & (sequence " ++ dec n ++ str ")"
                       end)%list).
Proof.
  intros P random arg salt pw lot sequence n A L N H. apply argument_entropy in A. unfold entropy_arg in A. unfold intermediate_code.
  rewrite A. cbn [bind]. rewrite L. cbn [Nat.eqb orb negb andb].
  replace (_ || _) with true; [unfold lib_error; rewrite error_str_text; destruct H as [[-> ->]|[-> ->]]; reflexivity|]. destruct H as [[-> ->]|[-> ->]]; cbn; destruct (Z.eqb_spec n 0); try contradiction; reflexivity.
Qed.
Theorem C22_lot_range : forall P random arg salt pw lot sequence, argument_bytes random arg salt ->
  List.length salt = 4%nat \/ List.length salt = 8%nat -> lot <> 0 -> sequence <> 0 -> ~ 100000 <= lot <= 999999 ->
  intermediate_code P random pw (Some lot) (Some sequence) arg = Raise (Lib CError (error_text "Invalid lot" (str "100000 <= lot <= 999999") (dec lot))).
Proof.
  intros P random arg salt pw lot sequence A L N1 N2 R. apply argument_entropy in A. unfold entropy_arg in A. unfold intermediate_code.
  rewrite A. cbn [bind]. replace (Nat.eqb _ 4 || Nat.eqb _ 8) with true by (destruct L as [-> | ->]; reflexivity). cbn [negb is_none orb].
  rewrite andb_false_r. cbn [truthy_int]. rewrite !andb_false_r. cbn [andb orb].
  destruct (Z.eqb_spec lot 0); [contradiction|]. destruct (Z.eqb_spec sequence 0); [contradiction|]. cbn [negb andb].
  replace (negb _) with true by lia. rewrite lib_error_other. reflexivity.
Qed.
Theorem C22_sequence_range : forall P random arg salt pw lot sequence, argument_bytes random arg salt ->
  List.length salt = 4%nat \/ List.length salt = 8%nat -> 100000 <= lot <= 999999 -> sequence <> 0 -> ~ 1 <= sequence <= 4095 ->
  intermediate_code P random pw (Some lot) (Some sequence) arg = Raise (Lib CError (error_text "Invalid sequence" (str "0 <= sequence <= 4095") (dec sequence))).
Proof.
  intros P random arg salt pw lot sequence A L R N2 R2. apply argument_entropy in A. unfold entropy_arg in A. unfold intermediate_code.
  rewrite A. cbn [bind]. replace (Nat.eqb _ 4 || Nat.eqb _ 8) with true by (destruct L as [-> | ->]; reflexivity). cbn [negb is_none orb].
  rewrite andb_false_r. cbn [truthy_int]. rewrite !andb_false_r. cbn [andb orb].
  destruct (Z.eqb_spec lot 0); [lia|]. destruct (Z.eqb_spec sequence 0); [contradiction|]. cbn [negb andb].
  destruct (negb ((100000 <=? lot) && (lot <=? 999999))) eqn:E; [lia|].
  replace (negb _) with true by lia. rewrite lib_error_other. reflexivity.
Qed.
(** A string that is not hexadecimal is a ValueError. *)
Theorem C22_not_hex : forall P random s pw lot sequence, s <> [] -> fromhex s = None ->
  intermediate_code P random pw lot sequence (PStr s) = Raise (Builtin ValueError).
Proof.
  intros P random s pw lot sequence N F. unfold intermediate_code. destruct s as [|x s]; [congruence|]. cbn [truthy].
  unfold get_bytes. cbn [truthy negb]. rewrite F. reflexivity.
Qed.

(** ** C23: a zero sequence or lot number is dropped *)
Theorem C23_zero_dropped : forall P random arg salt pw lot sequence, prims_ok P -> argument_bytes random arg salt ->
  List.length salt = 8%nat -> lot = 0 \/ sequence = 0 ->
  intermediate_code P random pw (Some lot) (Some sequence) arg = intermediate_code P random pw None None arg.
Proof.
  intros P random arg salt pw lot sequence HP A L H. apply argument_entropy in A.
  rewrite (intermediate_plain_eq P _ _ _ pw None None A) by auto.
  apply (intermediate_plain_eq P _ _ _ pw _ _ A). right. split; [auto|]. eauto.
Qed.
(** With a 4-byte salt the code has a 45-byte payload, which no call accepts. *)
Theorem C23_short_salt_useless : forall P random arg salt pw lot sequence s, prims_ok P -> argument_bytes random arg salt ->
  List.length salt = 4%nat -> lot = 0 \/ sequence = 0 ->
  intermediate_code P random pw (Some lot) (Some sequence) arg = Ok s ->
  (exists payload, base58check_text P bitcoin_alphabet payload s /\ List.length payload = 45%nat) /\
  forall random2 self network w a t seed_arg seed, session self network w a -> argument_bytes random2 seed_arg seed ->
    create_new_encrypted_wif P random2 self s t seed_arg network = Raise (Lib CPassphraseError (error_text "Invalid intermediate passphrase length" (str "49") (str "45"))).
Proof.
  intros P random arg salt pw lot sequence s HP A L H E. apply argument_entropy in A.
  rewrite (intermediate_plain_eq P _ _ _ pw _ _ A) in E by (right; split; eauto).
  apply (passphrase_code_iff P false) in E; [|exact HP]. destruct E as (pwb & e & x & y & _ & _ & _ & pp & SC & T).
  assert (Lp : List.length (code_magic false ++ salt ++ pp) = 45%nat).
  { destruct SC as (xs & [Lx _] & ->). cbn [code_magic app List.length]. rewrite app_length, L. cbn [List.length]. rewrite Lx. reflexivity. }
  split; [eauto|]. intros random2 self network w a t seed_arg seed HS B. apply argument_entropy in B.
  destruct (session_net_sel _ _ _ _ HS) as (n & N). rewrite (create_eq P HP _ _ _ _ _ _ _ _ _ N), B.
  rewrite (b58c_unique _ _ _ T), (check_decode_b58c P _ HP). unfold create_result. unfold zlen. rewrite Lp. change (dec (Z.of_nat 45)) with (dec 45). replace (dec 45) with (str "45") by (vm_compute; reflexivity). reflexivity.
Qed.

(** ** C43: random bytes *)
(** Without a salt the random bytes are used, all eight of them (C21 with
    [argument_bytes random PNone random]); with one they are not. *)
Theorem C43_intermediate_random : forall P random pw lot sequence arg, random <> [] ->
  arg = PNone \/ arg = PStr [] \/ arg = PBytes [] ->
  intermediate_code P random pw lot sequence arg = intermediate_code P random pw lot sequence (PBytes random).
Proof.
  intros P random pw lot sequence arg N H. destruct random as [|x random]; [congruence|]. unfold intermediate_code.
  change (get_bytes (PBytes (x :: random)) true) with (Ok (x :: random)).
  destruct H as [->|[->| ->]]; cbn [truthy bind]; reflexivity.
Qed.
Theorem C43_intermediate_explicit : forall P random random' pw lot sequence arg,
  (exists b, arg = PBytes b /\ b <> []) \/ (exists s, arg = PStr s /\ s <> []) ->
  intermediate_code P random pw lot sequence arg = intermediate_code P random' pw lot sequence arg.
Proof.
  intros P random random' pw lot sequence arg H. unfold intermediate_code. replace (truthy arg) with true; [reflexivity|].
  destruct H as [(b & -> & N)|(s & -> & N)]; [destruct b|destruct s]; congruence || reflexivity.
Qed.

(** ** Concrete cases *)
Lemma toy_sha_scalar b : exists e, scalar (toy_sha b) e.
Proof.
  unfold toy_sha. destruct (Z.odd (byte_value (last b x00))).
  - exists 2. split; [split; vm_compute; reflexivity|vm_compute; split; congruence].
  - exists 1. split; [split; vm_compute; reflexivity|vm_compute; split; congruence].
Qed.
Lemma toy_factor_lot pwb ent : exists e, scalar (owner_factor toy true pwb ent) e.
Proof.
  unfold owner_factor, sha256d. cbn [h_sha256 toy]. apply toy_sha_scalar.
Qed.
Lemma toy_factor_plain pwb ent : owner_factor toy false pwb ent = repeat x22 32.
Proof. reflexivity. Qed.
Lemma toy_factor_plain_ok pwb ent : exists e, scalar (owner_factor toy false pwb ent) e.
Proof. rewrite toy_factor_plain. exists (be2z (repeat x22 32)). apply key_okb_spec. vm_compute. reflexivity. Qed.
Lemma toy_pw : passphrase_bytes toy (str "Satoshi") (List.map n2b (str "Satoshi")).
Proof. vm_compute. reflexivity. Qed.
Example C21_lot_example : exists s, intermediate_code toy [] (str "Satoshi") (Some 369861) (Some 1) (PStr (str "a50dba6772cb9383")) = Ok s.
Proof.
  assert (A : argument_bytes [] (PStr (str "a50dba6772cb9383")) [xa5; x0d; xba; x67; x72; xcb; x93; x83]).
  { right. right. exists (str "a50dba6772cb9383"). split; [reflexivity|]. split; [discriminate|vm_compute; reflexivity]. }
  destruct (C21_lot_outcome toy [] _ _ (str "Satoshi") _ 369861 1 _ toy_ok A (or_intror eq_refl) ltac:(lia) ltac:(lia)
    (proj2 (lot_entropy_iff _ 369861 1 _ ltac:(cbn; lia)) eq_refl) toy_pw) as [[_ H]|[H _]]; [exact H|].
  destruct (toy_factor_lot (List.map n2b (str "Satoshi")) (slice 0 4 [xa5; x0d; xba; x67; x72; xcb; x93; x83] ++ z2be 4 (369861 * 4096 + 1))) as [e S].
  destruct (H e S).
Qed.
Lemma toy_plain_code_ex random arg salt : argument_bytes random arg salt -> List.length salt = 8%nat ->
  exists s, intermediate_code toy random (str "Satoshi") None None arg = Ok s.
Proof.
  intros A L. destruct (C21_plain_outcome toy random arg salt (str "Satoshi") _ toy_ok A L toy_pw) as [[_ H]|[H _]]; [exact H|].
  destruct (toy_factor_plain_ok (List.map n2b (str "Satoshi")) salt) as [e S]. destruct (H e S).
Qed.
(** Random salt (C21, C43), and the same code for sequence 0 (C23) *)
Example C21_plain_example : exists s, intermediate_code toy (repeat x01 8) (str "Satoshi") None None PNone = Ok s /\
  intermediate_code toy (repeat x01 8) (str "Satoshi") (Some 369861) (Some 0) PNone = Ok s /\
  intermediate_code toy [] (str "Satoshi") None None (PBytes (repeat x01 8)) = Ok s.
Proof.
  assert (A : argument_bytes (repeat x01 8) PNone (repeat x01 8)) by (left; auto).
  destruct (toy_plain_code_ex (repeat x01 8) PNone (repeat x01 8) A eq_refl) as [s E]. exists s. split; [exact E|]. split.
  - rewrite (C23_zero_dropped toy _ _ _ _ 369861 0 toy_ok A eq_refl (or_intror eq_refl)). exact E.
  - rewrite (C43_intermediate_random toy (repeat x01 8)) in E by (auto; discriminate). rewrite <- E.
    apply C43_intermediate_explicit. left. exists (repeat x01 8). split; [reflexivity|discriminate].
Qed.
(** A 4-byte salt with sequence 0 *)
Example C23_example : exists s, intermediate_code toy [] (str "Satoshi") (Some 369861) (Some 0) (PBytes [x01; x02; x03; x04]) = Ok s.
Proof.
  rewrite (intermediate_plain_eq toy [] (PBytes [x01; x02; x03; x04]) [x01; x02; x03; x04]); [|reflexivity|right; split; [left; reflexivity|exists 369861, 0; auto]].
  unfold intermediate_result. pose proof toy_pw as B. unfold passphrase_bytes in B. rewrite B. cbv zeta.
  replace (key_okb _) with true; [eexists; reflexivity|]. symmetry. rewrite <- owner_factor_eq, toy_factor_plain. vm_compute. reflexivity.
Qed.
(** A factor of zero *)
Definition toy0 : prims :=
  {| h_sha256 := toy_sha; h_ripemd160 := None; h_scrypt := fun _ _ _ _ _ l => repeat x00 l;
     h_aes_enc := toy_enc; h_aes_dec := toy_dec; h_nfc := toy_nfc |}.
Example C21_zero_factor_example : intermediate_code toy0 (repeat x01 8) (str "Satoshi") None None PNone = Raise (Lib CSecp256k1Error "Invalid private key bytes").
Proof.
  assert (HP : prims_ok toy0).
  { split; [reflexivity|discriminate|intros; apply repeat_length|exact (aes_enc_len toy toy_ok)|exact (aes_dec_len toy toy_ok)|exact (aes_dec_enc toy toy_ok)]. }
  destruct (C21_plain_outcome toy0 (repeat x01 8) PNone (repeat x01 8) (str "Satoshi") _ HP ltac:(left; auto) eq_refl toy_pw) as [[[e S] _]|[_ H]]; [|exact H].
  apply scalar_be2z in S. destruct S as [_ K]. vm_compute in K. discriminate.
Qed.
