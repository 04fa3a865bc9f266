(** * C101: what a traceback shows *)
From Coq Require Import Lia ZifyBool ZifyNat ZifyN.
From Verif Require Import Exceptions ErrorFacts Py Prims Const Spec PyFacts Utils UtilsFacts Base58 Base58Facts Crypto
  Curve SpecCurve Secp256k1 P2PKHAddress Cryptocurrencies Wif Bip38 SpecBip38 SpecRecords SpecReads SpecSession SpecOutcome
  CodecFacts CodecFacts2 ReadFacts Bip38Facts Bip38Facts2 Sessions Toy PropBase58 PropUtils PropCodec PropSession PropEC PropIntermediate
  Chains.

(** ** What is claimed *)
(** The exception of a call without what C101 adds: its class and text *)
Definition exception_of (e : raised) : exn :=
  match e with
  | Shown x => x | Unencodable _ _ _ _ _ => Builtin UnicodeEncodeError | Malformed => Builtin AssertionError
  end.
Definition outcome {A} (x : tres A) : res A :=
  match x with Fine a => Ok a | Fails e _ => Raise (exception_of e) end.
(** From [start] up to [stop] lie the first characters of [s] that are [bad], as many as
    follow one another *)
Definition first_run (bad : N -> Prop) (s : pystr) (start stop : nat) : Prop :=
  exists a b c, s = (a ++ b ++ c)%list /\ start = List.length a /\ stop = List.length (a ++ b) /\
    (forall x, In x a -> ~ bad x) /\ b <> [] /\ (forall x, In x b -> bad x) /\ (forall x r, c = x :: r -> ~ bad x).
Definition non_ascii (c : N) : Prop := (128 <= c)%N.
(** what utf-8 has no bytes for: surrogates, and numbers that are no code points *)
Definition surrogate (c : N) : Prop := (0xD800 <= c < 0xE000 \/ 0x110000 <= c)%N.
(** The exceptions of s.encode("ascii") and s.encode("utf-8") *)
Definition about_ascii (s : pystr) (e : raised) : Prop :=
  exists start stop, e = Unencodable "ascii" "ordinal not in range(128)" s start stop /\ first_run non_ascii s start stop.
Definition about_utf8 (s : pystr) (e : raised) : Prop :=
  exists start stop, e = Unencodable "utf-8" "surrogates not allowed" s start stop /\ first_run surrogate s start stop.
(** If [x] raises, its exception and those before it satisfy [Q] *)
Definition raising {A} (x : tres A) (Q : raised -> list raised -> Prop) : Prop :=
  match x with Fine _ => True | Fails e before => Q e before end.
(** an exception of another kind *)
Definition ordinary (e : raised) : Prop := exists x, e = Shown x /\ x <> Builtin UnicodeEncodeError.

(** The exceptions with the exceptions before them: an ordinary exception alone, or one of
    the ecdsa package turned into Secp256k1Error with a fixed text *)
Definition key_text (t : pystr) : Prop :=
  t = str "Invalid private key bytes" \/ t = str "Invalid public key bytes" \/ t = str "Invalid public key point".
Definition own (e : raised) (before : list raised) : Prop :=
  ordinary e /\ before = [] \/ (exists t, key_text t /\ e = Shown (Lib CSecp256k1Error t)) /\ before = [Malformed].
(** about the text [s] that is read, which is not ASCII; about the passphrase, whose
    normal form has no UTF-8 *)
Definition of_text (s : pystr) (e : raised) (before : list raised) : Prop := about_ascii s e /\ ~ is_ascii s /\ before = [].
Definition of_phrase (P : prims) (pw : pystr) (e : raised) (before : list raised) : Prop :=
  about_utf8 (h_nfc P pw) e /\ (forall pwb, ~ passphrase_bytes P pw pwb) /\ before = [].
Definition of_call (P : prims) (s pw : pystr) (e : raised) (before : list raised) : Prop :=
  own e before \/ of_text s e before \/ of_phrase P pw e before.
(** before "Invalid confirmation code" and "Invalid intermediate passphrase": the
    ValueError of a wrong checksum, or the exception about the code *)
Definition of_code (s : pystr) (before : list raised) : Prop :=
  exists u, before = [u] /\ (u = Shown (Builtin ValueError) \/ about_ascii s u /\ ~ is_ascii s).
(** "Incorrect passphrase" where the point of a confirmation code cannot be read *)
Definition of_point (e : raised) (before : list raised) : Prop :=
  e = Shown (Lib CPassphraseError "Incorrect passphrase") /\ exists t, key_text t /\ before = [Shown (Lib CSecp256k1Error t); Malformed].
(** The text of an exception about characters that cannot be encoded *)
Definition text_of (e : raised) : pystr :=
  match e with Unencodable codec reason object start stop => unencodable_text codec reason object start stop | _ => [] end.
(** ... and its attribute "object" *)
Definition object_of (e : raised) : option pystr := match e with Unencodable _ _ object _ _ => Some object | _ => None end.
(** A character as it is shown: a backslash, a letter for the number of digits, and that
    many hexadecimal digits, most significant first, whose value is the character *)
Definition shown_as (c : N) (t : pystr) : Prop :=
  exists letter ds, t = (str "\" ++ [letter] ++ List.map (fun d => nth (Z.to_nat d) (str "0123456789abcdef") 0%N) ds)%list /\
    (forall d, In d ds -> 0 <= d < 16) /\ digits_value 16 ds = Z.of_N c /\
    (In letter (str "x") /\ List.length ds = 2%nat /\ (c < 0x100)%N \/
     In letter (str "u") /\ List.length ds = 4%nat /\ (0x100 <= c < 0x10000)%N \/
     In letter (str "U") /\ List.length ds = 8%nat /\ (0x10000 <= c)%N).

(** ** Facts *)
Lemma outcome_plain {A} (x : res A) : outcome (plain x) = x.
Proof. destruct x; reflexivity. Qed.
Lemma outcome_bind {A B} (m : tres A) (f : A -> tres B) : outcome (tbind m f) = bind (outcome m) (fun a => outcome (f a)).
Proof. destruct m; reflexivity. Qed.
Lemma bind_same {A B} (m : tres A) (m' : res A) (f : A -> tres B) (g : A -> res B) :
  outcome m = m' -> (forall a, outcome (f a) = g a) -> outcome (tbind m f) = bind m' g.
Proof. intros <- H. rewrite outcome_bind. destruct (outcome m); cbn [bind]; [apply H|reflexivity]. Qed.
Ltac walk tac :=
  lazymatch goal with
  | |- outcome (plain _) = _ => apply outcome_plain
  | |- outcome (Fine _) = _ => reflexivity
  | |- outcome (Fail _) = _ => reflexivity
  | |- outcome (Fails _ _) = _ => reflexivity
  | |- outcome (tbind _ _) = bind _ _ => apply bind_same; [walk tac|intros; cbv beta; walk tac]
  | |- outcome (if ?b then _ else _) = _ => destruct b; walk tac
  | |- outcome (let '(a, b) := ?x in _) = _ => destruct x; walk tac
  | |- outcome (match ?x with _ => _ end) = match ?x with _ => _ end => destruct x; walk tac
  | |- _ => tac
  end.
Lemma same_ascii s : outcome (t_ascii_encode s) = ascii_encode s.
Proof. unfold t_ascii_encode, ascii_encode. destruct (forallb _ s); reflexivity. Qed.
Lemma same_utf8 s : outcome (t_utf8_encode s) = utf8_encode s.
Proof. unfold t_utf8_encode, utf8_encode. destruct (utf8_opt s); reflexivity. Qed.
Lemma same_decode s A : outcome (t_decode s A) = decode s A.
Proof. unfold t_decode, decode. walk ltac:(first [apply same_ascii]). Qed.
Lemma same_check_decode P s A : outcome (t_check_decode P s A) = check_decode P s A.
Proof. unfold t_check_decode, check_decode. cbv zeta. walk ltac:(first [apply same_decode]). Qed.
Lemma same_scrypt P pw salt n r p l : outcome (t_scrypt_str P pw salt n r p l) = scrypt_str P pw salt n r p l.
Proof. unfold t_scrypt_str, scrypt_str. walk ltac:(first [apply same_utf8]). Qed.
Lemma same_pub b : outcome (t_PublicKey_from_bytes b) = PublicKey_from_bytes b.
Proof. unfold t_PublicKey_from_bytes, PublicKey_from_bytes. walk ltac:(fail). Qed.
Lemma same_point p : outcome (t_PublicKey_from_point p) = PublicKey_from_point p.
Proof. unfold t_PublicKey_from_point, PublicKey_from_point. walk ltac:(fail). Qed.
Lemma same_priv b : outcome (t_PrivateKey_from_bytes b) = PrivateKey_from_bytes b.
Proof. unfold t_PrivateKey_from_bytes, PrivateKey_from_bytes. cbv zeta. walk ltac:(fail). Qed.
Lemma same_decode_wif s w : outcome (t_decode_wif s w) = decode_wif s w.
Proof. unfold t_decode_wif, decode_wif. cbv zeta. walk ltac:(first [apply same_decode]). Qed.
Lemma same_wtp s c n : outcome (t_wif_to_private_key s c n) = wif_to_private_key s c n.
Proof. unfold t_wif_to_private_key, wif_to_private_key. walk ltac:(first [apply same_decode_wif]). Qed.
Lemma same_type s c n : outcome (t_get_wif_type s c n) = get_wif_type s c n.
Proof. unfold t_get_wif_type, get_wif_type. walk ltac:(first [apply same_decode_wif]). Qed.
Lemma same_chk s c n : outcome (t_get_wif_checksum s c n) = get_wif_checksum s c n.
Proof. unfold t_get_wif_checksum, get_wif_checksum. walk ltac:(first [apply same_decode_wif]). Qed.
Lemma same_address P s ap al : outcome (t_P2PKH_decode P s ap al) = P2PKH_decode P s ap al.
Proof. unfold t_P2PKH_decode, P2PKH_decode. cbv zeta. walk ltac:(first [apply same_check_decode]). Qed.
Ltac known := first [apply same_scrypt|apply same_pub|apply same_point|apply same_priv|apply same_wtp|apply same_type|apply same_decode].
Lemma same_intermediate P random pw lot sequence salt :
  outcome (t_intermediate_code P random pw lot sequence salt) = intermediate_code P random pw lot sequence salt.
Proof. unfold t_intermediate_code, intermediate_code. cbv zeta. walk known. Qed.
Lemma same_encrypt P self wif pw network : outcome (t_encrypt P self wif pw network) = encrypt P self wif pw network.
Proof. unfold t_encrypt, encrypt. cbv zeta. walk known. Qed.
Lemma same_derive P pw flag ent : outcome (t_derive_pass_factor P pw flag ent) = derive_pass_factor P pw flag ent.
Proof. unfold t_derive_pass_factor, derive_pass_factor. cbv zeta. walk known. Qed.
Lemma value_error_of e : t_is_value_error e = is_value_error (exception_of e).
Proof. destruct e; reflexivity. Qed.
Lemma secp_error_of e : t_is_secp256k1_error e = is_secp256k1_error (exception_of e).
Proof. destruct e; reflexivity. Qed.
Lemma caught {A} (m : tres A) (m' : res A) (c : raised -> bool) (c' : exn -> bool) x :
  outcome m = m' -> (forall e, c e = c' (exception_of e)) ->
  outcome (match m with Fails e b => if c e then Fails (Shown x) (e :: b) else Fails e b | Fine d => Fine d end) =
  match m' with Raise e => if c' e then Raise x else Raise e | Ok d => Ok d end.
Proof. intros <- H. destruct m as [a|e b]; cbn [outcome]; [reflexivity|]. rewrite H. destruct (c' _); reflexivity. Qed.
Lemma same_create P random self code t seed network :
  outcome (t_create_new_encrypted_wif P random self code t seed network) = create_new_encrypted_wif P random self code t seed network.
Proof.
  unfold t_create_new_encrypted_wif, create_new_encrypted_wif. cbv zeta.
  walk ltac:(first [known|apply caught; [apply same_check_decode|apply value_error_of]]).
Qed.
Lemma same_confirm P self pw s network detail : outcome (t_confirm_code P self pw s network detail) = confirm_code P self pw s network detail.
Proof.
  unfold t_confirm_code, confirm_code. cbv zeta.
  walk ltac:(first [known|apply same_derive
    |apply caught; [first [apply same_check_decode|walk known]|first [apply value_error_of|apply secp_error_of]]]).
Qed.
Lemma same_no_ec P self d pw network detail : outcome (t_decrypt_no_ec P self d pw network detail) = decrypt_no_ec P self d pw network detail.
Proof. unfold t_decrypt_no_ec, decrypt_no_ec. cbv zeta. walk known. Qed.
Lemma same_ec P self d pw network detail : outcome (t_decrypt_ec P self d pw network detail) = decrypt_ec P self d pw network detail.
Proof. unfold t_decrypt_ec, decrypt_ec. cbv zeta. walk ltac:(first [known|apply same_derive]). Qed.
Lemma same_decrypt P self s pw network detail : outcome (t_decrypt P self s pw network detail) = decrypt P self s pw network detail.
Proof. unfold t_decrypt, decrypt. cbv zeta. walk ltac:(first [known|apply same_no_ec|apply same_ec]). Qed.

(** Where the characters are *)
Lemma count_while_spec p s : exists a r, s = (a ++ r)%list /\ List.length a = count_while p s /\
  (forall x, In x a -> p x = true) /\ (forall x t, r = x :: t -> p x = false).
Proof.
  induction s as [|c s (a & r & E & L & H1 & H2)].
  - exists [], []. repeat split; intros; try contradiction; try discriminate.
  - cbn [count_while]. destruct (p c) eqn:Pc.
    + exists (c :: a), r. split; [cbn [app]; congruence|]. split; [cbn [List.length]; congruence|]. split; [|exact H2].
      intros x [<-|I]; [exact Pc|apply H1, I].
    + exists [], (c :: s). repeat split; intros; try contradiction. congruence.
Qed.
Lemma run_found codec reason p (bad : N -> Prop) s : (forall c, p c = true <-> bad c) -> existsb p s = true ->
  exists start stop, cannot_encode codec reason p s = Unencodable codec reason s start stop /\ first_run bad s start stop.
Proof.
  intros H Ex. unfold cannot_encode. destruct (count_while_spec (fun c => negb (p c)) s) as (a & r & E & La & Ha & Hr).
  destruct (count_while_spec p r) as (b & c & E' & Lb & Hb & Hc). eexists. eexists. split; [reflexivity|].
  assert (R : skipn (count_while (fun c => negb (p c)) s) s = r).
  { rewrite <- La, E. rewrite skipn_app, Nat.sub_diag, skipn_all. reflexivity. }
  rewrite R, <- La, <- Lb. exists a, b, c. split; [rewrite E, E'; reflexivity|]. split; [reflexivity|]. split; [rewrite app_length; reflexivity|].
  split; [intros x I B; apply Ha in I; apply H in B; rewrite B in I; discriminate|]. split.
  - intros ->. cbn [app] in E'. subst c. destruct r as [|x r].
    + rewrite app_nil_r in E. subst s. apply existsb_exists in Ex. destruct Ex as (x & I & Px). apply Ha in I. rewrite Px in I. discriminate.
    + specialize (Hr x r eq_refl). specialize (Hc x r eq_refl). rewrite Hc in Hr. discriminate.
  - split; [intros x I; apply H, Hb, I|]. intros x t Et B. apply H in B. rewrite (Hc x t Et) in B. discriminate.
Qed.
Lemma utf8_char_bad c : match utf8_char c with Some _ => false | None => true end = true <-> surrogate c.
Proof.
  unfold utf8_char, surrogate. destruct (c <? 0x80)%N eqn:E1; [split; [discriminate|lia]|]. destruct (c <? 0x800)%N eqn:E2; [split; [discriminate|lia]|].
  destruct (c <? 0x10000)%N eqn:E3.
  - destruct ((0xD800 <=? c) && (c <? 0xE000))%N eqn:E4; split; trivial; try discriminate; lia.
  - destruct (c <? 0x110000)%N eqn:E4; split; trivial; try discriminate; lia.
Qed.
Lemma ascii_fails s : ascii_encode s = Raise (Builtin UnicodeEncodeError) ->
  about_ascii s (cannot_encode "ascii" "ordinal not in range(128)" (fun c => 128 <=? c)%N s).
Proof.
  unfold ascii_encode. destruct (forallb _ s) eqn:F; [discriminate|]. intros _. unfold about_ascii.
  apply run_found; [intros c; unfold non_ascii; lia|]. clear - F. induction s as [|c s IH]; [discriminate|]. cbn [forallb existsb] in *.
  destruct (c <? 128)%N eqn:E; cbn [andb] in F; [rewrite (IH F); apply orb_true_r|]. replace (128 <=? c)%N with true by lia. reflexivity.
Qed.
Lemma utf8_fails s : utf8_encode s = Raise (Builtin UnicodeEncodeError) ->
  about_utf8 s (cannot_encode "utf-8" "surrogates not allowed" (fun c => match utf8_char c with Some _ => false | None => true end) s).
Proof.
  unfold utf8_encode. destruct (utf8_opt s) eqn:F; [discriminate|]. intros _. unfold about_utf8.
  apply run_found; [apply utf8_char_bad|]. clear - F. induction s as [|c s IH]; [discriminate|]. cbn [utf8_opt existsb] in *.
  destruct (utf8_char c); [|reflexivity]. destruct (utf8_opt s); [discriminate|]. rewrite (IH eq_refl). reflexivity.
Qed.

(** Where the exceptions come from *)
Lemma raising_bind {A B} (m : tres A) (f : A -> tres B) Q : raising m Q -> (forall a, m = Fine a -> raising (f a) Q) -> raising (tbind m f) Q.
Proof. destruct m as [a|e b]; cbn [tbind raising]; intros H1 H2; [apply H2; reflexivity|exact H1]. Qed.
Lemma raising_weaken {A} (m : tres A) (Q Q' : raised -> list raised -> Prop) : (forall e b, Q e b -> Q' e b) -> raising m Q -> raising m Q'.
Proof. destruct m; cbn [raising]; auto. Qed.
Definition calm {A} (x : res A) : Prop := x <> Raise (Builtin UnicodeEncodeError).
Lemma raising_plain {A} (x : res A) (Q : raised -> list raised -> Prop) : calm x -> (forall e b, own e b -> Q e b) -> raising (plain x) Q.
Proof.
  destruct x as [a|e]; intros C H; cbn [plain raising Fail]; [exact I|]. apply H. left. split; [|reflexivity]. exists e. split; [reflexivity|].
  intros ->. apply C. reflexivity.
Qed.
Lemma raising_fail {A} e (Q : raised -> list raised -> Prop) : e <> Builtin UnicodeEncodeError -> (forall e b, own e b -> Q e b) -> raising (Fail e : tres A) Q.
Proof. intros C H. apply H. left. split; [|reflexivity]. exists e. auto. Qed.

Lemma calm_bind {A B} (m : res A) (f : A -> res B) : calm m -> (forall a, m = Ok a -> calm (f a)) -> calm (bind m f).
Proof. destruct m as [a|e]; intros H1 H2; cbn [bind]; [apply H2; reflexivity|]. intros E. apply H1. congruence. Qed.
Lemma calm_ok {A} (a : A) : calm (Ok a). Proof. discriminate. Qed.
Lemma calm_i2b z : calm (integer_to_bytes z).
Proof.
  destruct (Z.lt_ge_cases z 0) as [L|L]; [rewrite integer_to_bytes_neg by exact L; discriminate|]. rewrite (pre_eq z L). discriminate.
Qed.
Lemma calm_get_bytes d : calm (get_bytes d true).
Proof. unfold get_bytes. destruct (negb (truthy d)); [discriminate|]. destruct d; try discriminate. destruct (fromhex s); discriminate. Qed.
Lemma calm_b2s b : calm (bytes_to_string (PBytes b)).
Proof. rewrite bytes_to_string_bytes. discriminate. Qed.
Lemma calm_dsha P b : calm (double_sha256 P (PBytes b)).
Proof. unfold double_sha256, sha256. rewrite get_bytes_bytes. cbn [bind]. rewrite get_bytes_bytes. discriminate. Qed.
Lemma calm_checksum P b : calm (get_checksum P (PBytes b)).
Proof. apply calm_bind; [apply calm_dsha|]. intros; discriminate. Qed.
Lemma calm_n2s z : calm (number_to_string z).
Proof. unfold number_to_string. repeat match goal with |- calm (if ?b then _ else _) => destruct b end; discriminate. Qed.
Lemma calm_i2bn z n : calm (integer_to_bytes_n z n).
Proof.
  unfold integer_to_bytes_n, integer_to_bytes_full, to_bytes.
  repeat match goal with |- calm (if ?b then _ else _) => destruct b | |- calm (let n := _ in _) => cbv zeta end; discriminate.
Qed.
Lemma calm_network self network : calm (select_network self network).
Proof. unfold select_network. cbv zeta. destruct (negb _); discriminate. Qed.
Lemma calm_address P self n pk t : prims_ok P -> calm (address_of P self n pk t) /\ forall s, address_of P self n pk t = Ok s -> is_ascii s.
Proof.
  intros HP. unfold address_of, address_prefix_of. destruct (dict_get n _) as [[w a]|]; cbn [bind]; [|split; [discriminate|intros s H; discriminate]].
  unfold P2PKH_encode. cbn [default].
  assert (I : calm (integer_to_bytes a)) by apply calm_i2b. destruct (integer_to_bytes a) as [p|e]; cbn [bind]; [|split; [intros E; apply I; congruence|intros s H; discriminate]].
  set (r := if str_eqb t (str "compressed") then raw_compressed pk else raw_uncompressed pk).
  assert (C : calm r).
  { subst r. destruct (str_eqb _ _); unfold raw_compressed, raw_uncompressed.
    - apply calm_bind; [apply calm_n2s|]. intros; discriminate.
    - apply calm_bind; [apply calm_n2s|]. intros. apply calm_bind; [apply calm_n2s|]. intros; discriminate. }
  destruct r as [raw|e]; cbn [bind]; [|split; [intros E; apply C; congruence|intros s H; discriminate]].
  assert (H1 : calm (hash160 P (PBytes raw))).
  { rewrite (hash160_eq P raw HP). discriminate. }
  destruct (hash160 P (PBytes raw)) as [h|e]; cbn [bind]; [|split; [intros E; apply H1; congruence|intros s H; discriminate]].
  change (check_encode P (p ++ h) Bitcoin_ALPHABET) with (check_encode P (p ++ h) base58_alphabet). rewrite check_encode_b58c. cbn [bind ensure_string].
  split; [discriminate|]. intros s H. apply (f_equal (fun r => match r with Ok x => x | Raise _ => [] end)) in H. cbn beta iota in H. subst s. apply b58_ascii.
Qed.
Lemma calm_hash P s : is_ascii s -> calm (address_hash_of P s).
Proof. intros A. unfold address_hash_of. rewrite get_bytes_utf8, utf8_encode_ascii by exact A. apply calm_checksum. Qed.
Lemma calm_pub k : calm (PrivateKey_public_key k).
Proof. unfold PrivateKey_public_key. destruct (ec_mul _ _); discriminate. Qed.
Lemma calm_compressed k : calm (raw_compressed k).
Proof. apply calm_bind; [apply calm_n2s|intros; discriminate]. Qed.
Lemma calm_raw k t : calm (PublicKey_raw k t).
Proof.
  assert (C : calm (raw_compressed k)) by (apply calm_bind; [apply calm_n2s|intros; discriminate]).
  assert (U : calm (raw_uncompressed k)) by (apply calm_bind; [apply calm_n2s|intros; apply calm_bind; [apply calm_n2s|intros; discriminate]]).
  unfold PublicKey_raw. destruct (str_eqb _ _); assumption.
Qed.
Lemma calm_encode d : calm (encode d base58_alphabet).
Proof. rewrite encode_b58. discriminate. Qed.
Lemma calm_check P d : calm (check_encode P d base58_alphabet).
Proof. rewrite check_encode_b58c. discriminate. Qed.
Lemma calm_aes_new k : calm (aes_new k).
Proof. unfold aes_new. cbv zeta. destruct (_ || _); discriminate. Qed.
Lemma calm_aes P k b : calm (aes_encrypt P k b) /\ calm (aes_decrypt P k b).
Proof. unfold aes_encrypt, aes_decrypt. destruct (Nat.eqb _ _); split; discriminate. Qed.
Lemma calm_one_of A m z1 z2 got : calm (raise_not_one_of m z1 z2 got : res A).
Proof.
  apply calm_bind; [apply calm_i2b|]. intros. apply calm_bind; [apply calm_b2s|]. intros. apply calm_bind; [apply calm_i2b|]. intros.
  apply calm_bind; [apply calm_b2s|]. intros. apply calm_bind; [apply calm_b2s|]. intros. discriminate.
Qed.
Lemma calm_prefix c n : calm (wif_prefix_of c n).
Proof. unfold wif_prefix_of. destruct (dict_get n _) as [[w a]|]; discriminate. Qed.
Lemma calm_encode_wif P k w : calm (encode_wif P (PBytes k) w).
Proof.
  unfold encode_wif. apply calm_bind; [apply calm_get_bytes|]. intros pk _. destruct (negb _).
  - apply calm_bind; [discriminate|intros; discriminate].
  - apply calm_bind; [apply calm_i2b|]. intros. cbv zeta. apply calm_bind; [apply calm_i2b|]. intros. apply calm_bind; [apply calm_checksum|]. intros.
    apply calm_bind; [apply calm_encode|]. intros. apply calm_bind; [apply calm_checksum|]. intros. apply calm_bind; [apply calm_encode|]. intros. discriminate.
Qed.
Lemma calm_to_wif P k t c n : calm (private_key_to_wif P (PBytes k) t c n).
Proof.
  unfold private_key_to_wif. destruct (negb _); [discriminate|]. apply calm_bind; [apply calm_prefix|]. intros.
  apply calm_bind; [apply calm_encode_wif|]. intros [? ?] _. discriminate.
Qed.
Ltac calm_tac :=
  first [ apply calm_i2b | apply calm_i2bn | apply calm_get_bytes | apply calm_b2s | apply calm_dsha | apply calm_checksum | apply calm_network
        | apply calm_address; assumption | apply calm_pub | apply calm_raw | apply calm_compressed | apply calm_aes | apply calm_one_of | apply calm_prefix | apply calm_to_wif
        | apply calm_encode | apply calm_check | apply calm_aes_new | discriminate ].

(** Going through a function: [Q] holds of what the plain calls raise *)
Ltac go Q H tac :=
  lazymatch goal with
  | |- raising (plain ?x) _ => first [apply raising_plain; [calm_tac|exact H] | tac]
  | |- raising (Fine _) _ => exact I
  | |- raising (Fail _) _ => apply raising_fail; [discriminate|exact H]
  | |- raising (tbind (plain (address_of ?P ?self ?n ?pk ?t)) _) _ =>
      apply raising_bind; [apply raising_plain; [apply calm_address; assumption|exact H]|];
      let s := fresh "s" in let E := fresh "E" in intros s E;
      match type of E with plain ?x = Fine _ =>
        let X := fresh "X" in assert (X : is_ascii s) by (apply (calm_address P self n pk t); [assumption|]; destruct x; [injection E as <-; reflexivity|discriminate E]);
        apply raising_bind; [apply raising_plain; [apply calm_hash; exact X|exact H]|]; intros ? _; cbv beta; go Q H tac end
  | |- raising (tbind _ _) _ => apply raising_bind; [go Q H tac|intros ? _; cbv beta; go Q H tac]
  | |- raising (if ?b then _ else _) _ => destruct b; go Q H tac
  | |- raising (let '(a, b) := ?x in _) _ => destruct x; go Q H tac
  | |- raising (match ?x with _ => _ end) _ => first [tac | destruct x; go Q H tac]
  | |- _ => tac
  end.
Lemma ascii_raising s : raising (t_ascii_encode s) (of_text s).
Proof.
  unfold t_ascii_encode. destruct (ascii_encode s) as [b|e] eqn:E; [exact I|]. cbn [raising]. split; [|split; [|reflexivity]].
  - apply ascii_fails. rewrite E. unfold ascii_encode in E. destruct (forallb _ s); [discriminate|congruence].
  - intros A. unfold ascii_encode in E. destruct (forallb _ s) eqn:F; [discriminate|]. apply Bool.not_true_iff_false in F. apply F, forallb_forall.
    intros x Hx. unfold is_ascii in A. rewrite Forall_forall in A. specialize (A x Hx). apply N.ltb_lt. exact A.
Qed.
Lemma decode_raising s : raising (t_decode s base58_alphabet) (of_text s).
Proof.
  unfold t_decode. apply raising_bind; [apply ascii_raising|]. intros data Ed. cbv beta.
  assert (A : is_ascii s).
  { unfold t_ascii_encode, ascii_encode in Ed. destruct (forallb _ s) eqn:F; [|discriminate]. apply Forall_forall. intros x Hx.
    rewrite forallb_forall in F. apply N.ltb_lt, F, Hx. }
  destruct (decode_ascii58 s A) as [d D]. pose proof (same_decode s base58_alphabet) as S. rewrite D in S. unfold t_decode in S. rewrite Ed in S. cbn [tbind] in S.
  match goal with |- raising ?m _ => destruct m; [exact I|discriminate S] end.
Qed.
Definition bad_checksum (e : raised) (b : list raised) : Prop := e = Shown (Builtin ValueError) /\ b = [].
Lemma check_raising P s : raising (t_check_decode P s base58_alphabet) (fun e b => bad_checksum e b \/ of_text s e b).
Proof.
  unfold t_check_decode. apply raising_bind; [apply (raising_weaken _ (of_text s)); [auto|apply decode_raising]|]. intros d _. cbv zeta. destruct (negb _); [|exact I].
  left. split; reflexivity.
Qed.
Lemma scrypt_raising P pw salt n r p l : raising (t_scrypt_str P pw salt n r p l) (of_phrase P pw).
Proof.
  unfold t_scrypt_str, t_utf8_encode. destruct (utf8_encode (h_nfc P pw)) as [b|e] eqn:E; [exact I|]. cbn [tbind raising].
  assert (e = Builtin UnicodeEncodeError) by (unfold utf8_encode in E; destruct (utf8_opt _); congruence). subst e.
  split; [apply utf8_fails, E|]. split; [|reflexivity]. intros pwb B. unfold passphrase_bytes in B. congruence.
Qed.
Lemma key_raising b : raising (t_PrivateKey_from_bytes b) own.
Proof.
  assert (O : own (Shown (Lib CSecp256k1Error "Invalid private key bytes")) [Malformed]) by (right; split; [eexists; split; [|reflexivity]; unfold key_text; tauto|reflexivity]).
  unfold t_PrivateKey_from_bytes. destruct (negb _); [exact O|]. cbv zeta. destruct (_ && _); [exact I|exact O].
Qed.
Lemma pub_raising b : raising (t_PublicKey_from_bytes b) own.
Proof.
  assert (O : own (Shown (Lib CSecp256k1Error "Invalid public key bytes")) [Malformed]) by (right; split; [eexists; split; [|reflexivity]; unfold key_text; tauto|reflexivity]).
  unfold t_PublicKey_from_bytes. destruct (point_coords b) as [[x y]|]; [|exact O]. destruct (valid_public_point x y); [exact I|exact O].
Qed.
Lemma point_raising p : raising (t_PublicKey_from_point p) own.
Proof.
  unfold t_PublicKey_from_point. destruct p as [|x y]; [left; split; [eexists; split; [reflexivity|discriminate]|reflexivity]|].
  destruct (negb _); [left; split; [eexists; split; [reflexivity|discriminate]|reflexivity]|]. destruct (valid_public_point x y); [exact I|].
  right. split; [eexists; split; [|reflexivity]; unfold key_text; tauto|reflexivity].
Qed.
Ltac steps :=
  first [ eapply raising_weaken; [|first [apply scrypt_raising|apply key_raising|apply pub_raising|apply point_raising|apply decode_raising]];
          unfold of_call; cbv beta; tauto ].
Lemma own_call P s pw : forall e b, own e b -> of_call P s pw e b. Proof. unfold of_call. auto. Qed.
Lemma no_ec_raising P self d pw n detail s : prims_ok P -> raising (t_decrypt_no_ec P self d pw n detail) (of_call P s pw).
Proof. intros HP. pose proof (own_call P s pw) as H. unfold t_decrypt_no_ec. cbv zeta. go (of_call P s pw) H steps. Qed.
Lemma derive_raising P pw flag ent s : raising (t_derive_pass_factor P pw flag ent) (of_call P s pw).
Proof. pose proof (own_call P s pw) as H. unfold t_derive_pass_factor. cbv zeta. go (of_call P s pw) H steps. Qed.
Lemma ec_raising P self d pw n detail s : prims_ok P -> raising (t_decrypt_ec P self d pw n detail) (of_call P s pw).
Proof. intros HP. pose proof (own_call P s pw) as H. unfold t_decrypt_ec. cbv zeta. go (of_call P s pw) H ltac:(first [steps|apply derive_raising]). Qed.
Lemma decrypt_raising P self s pw network detail : prims_ok P -> raising (t_decrypt P self s pw network detail) (of_call P s pw).
Proof. intros HP. pose proof (own_call P s pw) as H. unfold t_decrypt. cbv zeta. go (of_call P s pw) H ltac:(first [steps|apply no_ec_raising; assumption|apply ec_raising; assumption]). Qed.
Lemma wif_raising s w : raising (t_decode_wif s w) (fun e b => own e b \/ of_text s e b).
Proof.
  assert (H : forall e b, own e b -> own e b \/ of_text s e b) by auto. unfold t_decode_wif. cbv zeta.
  go (fun e b => own e b \/ of_text s e b) H ltac:(eapply raising_weaken; [|apply decode_raising]; cbv beta; tauto).
Qed.
Lemma wifs_raising s c n :
  raising (t_wif_to_private_key s c n) (fun e b => own e b \/ of_text s e b) /\ raising (t_get_wif_type s c n) (fun e b => own e b \/ of_text s e b) /\
  raising (t_get_wif_checksum s c n) (fun e b => own e b \/ of_text s e b).
Proof.
  assert (H : forall e b, own e b -> own e b \/ of_text s e b) by auto.
  unfold t_wif_to_private_key, t_get_wif_type, t_get_wif_checksum. split; [|split]; go (fun e b => own e b \/ of_text s e b) H ltac:(first [apply wif_raising]).
Qed.
Lemma encrypt_raising P self s pw network : prims_ok P -> raising (t_encrypt P self s pw network) (of_call P s pw).
Proof.
  intros HP. pose proof (own_call P s pw) as H. unfold t_encrypt. cbv zeta.
  go (of_call P s pw) H ltac:(first [steps|eapply raising_weaken; [|apply wifs_raising]; unfold of_call; cbv beta; tauto]).
Qed.
Lemma intermediate_raising P random pw lot sequence salt :
  raising (t_intermediate_code P random pw lot sequence salt) (fun e b => own e b \/ of_phrase P pw e b).
Proof.
  assert (H : forall e b, own e b -> own e b \/ of_phrase P pw e b) by auto. unfold t_intermediate_code. cbv zeta.
  go (fun e b => own e b \/ of_phrase P pw e b) H
    ltac:(first [eapply raising_weaken; [|first [apply scrypt_raising|apply key_raising]]; cbv beta; tauto]).
Qed.
(** What the two "except" clauses turn into an exception of the library *)
Lemma caught_code P s (x : exn) (Q : raised -> list raised -> Prop) : (forall b, of_code s b -> Q (Shown x) b) ->
  raising (match t_check_decode P s base58_alphabet with
           | Fails e b => if t_is_value_error e then Fails (Shown x) (e :: b) else Fails e b | Fine d => Fine d end) Q.
Proof.
  intros H. pose proof (check_raising P s) as C. destruct (t_check_decode P s base58_alphabet) as [d|e b]; [exact I|]. cbn [raising] in C.
  destruct C as [[-> ->]|(U & NA & ->)]; cbn [t_is_value_error is_value_error raising].
  - apply H. eexists. split; [reflexivity|]. left. reflexivity.
  - pose proof U as (st & sp & -> & _). cbn [t_is_value_error raising]. apply H. eexists. split; [reflexivity|]. right. split; assumption.
Qed.
Lemma create_raising P random self code t seed network : prims_ok P ->
  raising (t_create_new_encrypted_wif P random self code t seed network)
    (fun e b => own e b \/ e = Shown (Lib CPassphraseError "Invalid intermediate passphrase") /\ of_code code b).
Proof.
  intros HP. set (Q := fun e b => own e b \/ e = Shown (Lib CPassphraseError "Invalid intermediate passphrase") /\ of_code code b).
  assert (H : forall e b, own e b -> Q e b) by (unfold Q; auto). unfold t_create_new_encrypted_wif. cbv zeta.
  go Q H ltac:(first [eapply raising_weaken; [exact H|first [apply key_raising|apply pub_raising|apply point_raising]]|apply caught_code; unfold Q; auto]).
Qed.
Lemma caught_point {A} (m : tres A) (Q : raised -> list raised -> Prop) :
  raising m (fun e b => (exists x, e = Shown (Builtin x) /\ x <> UnicodeEncodeError) /\ b = [] \/ (exists t, key_text t /\ e = Shown (Lib CSecp256k1Error t)) /\ b = [Malformed]) ->
  (forall e b, own e b -> Q e b) -> (forall e b, of_point e b -> Q e b) ->
  raising (match m with
           | Fails e b => if t_is_secp256k1_error e then Fails (Shown (Lib CPassphraseError "Incorrect passphrase")) (e :: b) else Fails e b
           | Fine r => Fine r end) Q.
Proof.
  intros C H1 H2. destruct m as [a|e b]; [exact I|]. cbn [raising] in C. destruct C as [[(x & -> & N) ->]|[(t & K & ->) ->]]; cbn [t_is_secp256k1_error is_secp256k1_error raising].
  - apply H1. left. split; [|reflexivity]. eexists. split; [reflexivity|]. congruence.
  - apply H2. split; [reflexivity|]. exists t. split; [exact K|reflexivity].
Qed.
Lemma confirm_raising P self pw s network detail : prims_ok P ->
  raising (t_confirm_code P self pw s network detail)
    (fun e b => own e b \/ of_phrase P pw e b \/ e = Shown (Lib CError "Invalid confirmation code") /\ of_code s b \/ of_point e b).
Proof.
  intros HP. set (Q := fun e b => own e b \/ of_phrase P pw e b \/ e = Shown (Lib CError "Invalid confirmation code") /\ of_code s b \/ of_point e b).
  assert (H : forall e b, own e b -> Q e b) by (unfold Q; auto). unfold t_confirm_code. cbv zeta.
  assert (S : forall salt n r p l, raising (t_scrypt_str P pw salt n r p l) Q).
  { intros. eapply raising_weaken; [|apply scrypt_raising]. unfold Q. tauto. }
  go Q H ltac:(first [apply caught_code; unfold Q; auto; fail
    | eapply raising_weaken; [exact H|first [apply key_raising]]
    | unfold t_derive_pass_factor; cbv zeta; go Q H ltac:(apply S)
    | apply caught_point; [|exact H|unfold Q; auto] ]).
  unfold t_PublicKey_from_bytes. destruct (point_coords _) as [[x y]|]; [destruct (valid_public_point x y)|]; cbn [tbind raising]; [|right; unfold key_text; eauto 8|right; unfold key_text; eauto 8].
  unfold t_PublicKey_from_point. destruct (Point_mul _ _) as [|x' y']; [left; split; [eexists; split; [reflexivity|discriminate]|reflexivity]|].
  destruct (negb _); [left; split; [eexists; split; [reflexivity|discriminate]|reflexivity]|]. destruct (valid_public_point x' y'); cbn [tbind raising]; [exact I|right; unfold key_text; eauto 8].
Qed.

(** ** Theorems *)
(** Class, text and result are those of the functions that leave the chain out *)
Theorem C101_same : forall P self wif s pw network detail random code t arg lot sequence c n w,
  outcome (t_encrypt P self wif pw network) = encrypt P self wif pw network /\
  outcome (t_decrypt P self s pw network detail) = decrypt P self s pw network detail /\
  outcome (t_confirm_code P self pw code network detail) = confirm_code P self pw code network detail /\
  outcome (t_create_new_encrypted_wif P random self code t arg network) = create_new_encrypted_wif P random self code t arg network /\
  outcome (t_intermediate_code P random pw lot sequence arg) = intermediate_code P random pw lot sequence arg /\
  outcome (t_decode_wif wif w) = decode_wif wif w /\
  outcome (t_wif_to_private_key wif c n) = wif_to_private_key wif c n /\
  outcome (t_get_wif_type wif c n) = get_wif_type wif c n /\
  outcome (t_get_wif_checksum wif c n) = get_wif_checksum wif c n /\
  (forall ap al, outcome (t_P2PKH_decode P s ap al) = P2PKH_decode P s ap al).
Proof.
  intros. split; [apply same_encrypt|]. split; [apply same_decrypt|]. split; [apply same_confirm|]. split; [apply same_create|].
  split; [apply same_intermediate|]. split; [apply same_decode_wif|]. split; [apply same_wtp|]. split; [apply same_type|]. split; [apply same_chk|].
  intros. apply same_address.
Qed.
(** All the chains there are *)
Theorem C101_decrypt : forall P self s pw network detail, prims_ok P -> raising (t_decrypt P self s pw network detail) (of_call P s pw).
Proof. intros. apply decrypt_raising. assumption. Qed.
Theorem C101_encrypt : forall P self wif pw network, prims_ok P -> raising (t_encrypt P self wif pw network) (of_call P wif pw).
Proof. intros. apply encrypt_raising. assumption. Qed.
Theorem C101_intermediate_code : forall P random pw lot sequence arg,
  raising (t_intermediate_code P random pw lot sequence arg) (fun e b => own e b \/ of_phrase P pw e b).
Proof. intros. apply intermediate_raising. Qed.
Theorem C101_confirm_code : forall P self code pw network detail, prims_ok P ->
  raising (t_confirm_code P self pw code network detail) (fun e b =>
    own e b \/ of_phrase P pw e b \/ e = Shown (Lib CError "Invalid confirmation code") /\ of_code code b \/ of_point e b).
Proof. intros. apply confirm_raising. assumption. Qed.
Theorem C101_create : forall P random self code t arg network, prims_ok P ->
  raising (t_create_new_encrypted_wif P random self code t arg network) (fun e b =>
    own e b \/ e = Shown (Lib CPassphraseError "Invalid intermediate passphrase") /\ of_code code b).
Proof. intros. apply create_raising. assumption. Qed.
Theorem C101_wif : forall wif w c n, let Q e b := own e b \/ of_text wif e b in
  raising (t_decode_wif wif w) Q /\ raising (t_wif_to_private_key wif c n) Q /\ raising (t_get_wif_type wif c n) Q /\ raising (t_get_wif_checksum wif c n) Q.
Proof. intros wif w c n Q. split; [apply wif_raising|]. apply wifs_raising. Qed.

(** A text to be read that is not ASCII: the exception of the encoder reaches the
    caller, or the library's exception with that exception before it *)
Lemma not_ascii_decode s A : ~ is_ascii s -> exists u, about_ascii s u /\ t_decode s A = Fails u [].
Proof.
  intros NA. pose proof (ascii_raising s) as R. unfold t_decode. destruct (t_ascii_encode s) as [b|e b] eqn:E; cbn [raising tbind] in *.
  - exfalso. apply NA. unfold t_ascii_encode, ascii_encode in E. destruct (forallb _ s) eqn:F; [|discriminate]. apply Forall_forall. intros x Hx.
    rewrite forallb_forall in F. apply N.ltb_lt, F, Hx.
  - destruct R as (U & _ & ->). exists e. split; [exact U|reflexivity].
Qed.
Lemma about_ascii_value s u : about_ascii s u -> t_is_value_error u = true.
Proof. intros (st & sp & -> & _). reflexivity. Qed.
Theorem C101_not_ascii : forall P self network w a s pw code t random arg seed detail,
  session self network w a -> ~ is_ascii s -> argument_bytes random arg seed ->
  exists u, about_ascii s u /\
    t_decrypt P self s pw network detail = Fails u [] /\
    t_encrypt P self s pw network = Fails u [] /\
    t_decode_wif s w = Fails u [] /\
    t_confirm_code P self code s network detail = Fails (Shown (Lib CError "Invalid confirmation code")) [u] /\
    t_create_new_encrypted_wif P random self s t arg network = Fails (Shown (Lib CPassphraseError "Invalid intermediate passphrase")) [u].
Proof.
  intros P self network w a s pw code t random arg seed detail HS NA A. destruct (session_net_sel _ _ _ _ HS) as (n & N).
  apply argument_entropy in A. unfold entropy_arg in A.
  destruct (not_ascii_decode s base58_alphabet NA) as (u & U & D). exists u. split; [exact U|]. pose proof (about_ascii_value _ _ U) as V.
  split; [|split; [|split; [|split]]].
  - unfold t_decrypt. rewrite (ns_sel _ _ _ _ _ N). cbn [plain tbind]. rewrite D. reflexivity.
  - unfold t_encrypt. rewrite (ns_sel _ _ _ _ _ N). cbn [plain tbind]. unfold t_get_wif_type, wif_prefix_of. rewrite (ns_get _ _ _ _ _ N). cbn [plain tbind].
    unfold t_decode_wif. rewrite D. reflexivity.
  - unfold t_decode_wif. rewrite D. reflexivity.
  - unfold t_confirm_code. rewrite (ns_sel _ _ _ _ _ N). cbn [plain tbind]. unfold t_check_decode. rewrite D. cbn [tbind]. rewrite V. reflexivity.
  - unfold t_create_new_encrypted_wif. rewrite (ns_sel _ _ _ _ _ N). cbn [plain tbind].
    assert (X : (if truthy arg then plain (get_bytes arg true) else Fine random) = Fine seed).
    { destruct (truthy arg); [rewrite A; reflexivity|]. apply Ok_inj in A. congruence. }
    rewrite X. cbn [tbind]. unfold t_check_decode. rewrite D. cbn [tbind]. rewrite V. reflexivity.
Qed.
(** A call that ends with UnicodeEncodeError: what it is about *)
Lemma unicode_error {A} (m : tres A) (Q : raised -> list raised -> Prop) (R : raised -> Prop) :
  raising m Q -> outcome m = Raise (Builtin UnicodeEncodeError) ->
  (forall e b, Q e b -> exception_of e = Builtin UnicodeEncodeError -> R e /\ b = []) -> exists u, R u /\ m = Fails u [].
Proof.
  destruct m as [a|e b]; cbn [raising outcome]; intros H E X; [discriminate|]. injection E as E. destruct (X e b H E) as [Y ->]. exists e. auto.
Qed.
Lemma own_not_unicode e b : own e b -> exception_of e <> Builtin UnicodeEncodeError.
Proof. intros [[(x & -> & N) _]|[(t & _ & ->) _]]; [exact N|discriminate]. Qed.
Theorem C101_unicode_error : forall P self s pw network detail random lot sequence arg, prims_ok P ->
  let text u := about_ascii s u /\ ~ is_ascii s in
  let phrase u := about_utf8 (h_nfc P pw) u /\ forall pwb, ~ passphrase_bytes P pw pwb in
  (decrypt P self s pw network detail = Raise (Builtin UnicodeEncodeError) ->
     exists u, (text u \/ phrase u) /\ t_decrypt P self s pw network detail = Fails u []) /\
  (encrypt P self s pw network = Raise (Builtin UnicodeEncodeError) ->
     exists u, (text u \/ phrase u) /\ t_encrypt P self s pw network = Fails u []) /\
  (confirm_code P self pw s network detail = Raise (Builtin UnicodeEncodeError) ->
     exists u, phrase u /\ t_confirm_code P self pw s network detail = Fails u []) /\
  (intermediate_code P random pw lot sequence arg = Raise (Builtin UnicodeEncodeError) ->
     exists u, phrase u /\ t_intermediate_code P random pw lot sequence arg = Fails u []).
Proof.
  intros P self s pw network detail random lot sequence arg HP text phrase.
  assert (C : forall e b, of_call P s pw e b -> exception_of e = Builtin UnicodeEncodeError -> (text e \/ phrase e) /\ b = []).
  { intros e b [O|[(U & NA & ->)|(U & NB & ->)]] E; [destruct (own_not_unicode _ _ O E)| |]; split; trivial; [left|right]; split; assumption. }
  split; [|split; [|split]]; intros E.
  - rewrite <- same_decrypt in E. exact (unicode_error _ _ _ (decrypt_raising P self s pw network detail HP) E C).
  - rewrite <- same_encrypt in E. exact (unicode_error _ _ _ (encrypt_raising P self s pw network HP) E C).
  - rewrite <- same_confirm in E. refine (unicode_error _ _ _ (confirm_raising P self pw s network detail HP) E _).
    intros e b [O|[(U & NB & ->)|[[-> _]|[-> _]]]] X; [destruct (own_not_unicode _ _ O X)| |discriminate|discriminate]. split; [split; assumption|reflexivity].
  - rewrite <- same_intermediate in E. refine (unicode_error _ _ _ (intermediate_raising P random pw lot sequence arg) E _).
    intros e b [O|(U & NB & ->)] X; [destruct (own_not_unicode _ _ O X)|]. split; [split; assumption|reflexivity].
Qed.
(** What is printed above the exception of a method never is about the passphrase *)
Definition prior (code : pystr) (e : raised) : Prop :=
  e = Malformed \/ e = Shown (Builtin ValueError) \/ (exists t, key_text t /\ e = Shown (Lib CSecp256k1Error t)) \/ about_ascii code e.
Theorem C101_before : forall P self s pw network detail random t lot sequence arg, prims_ok P ->
  raising (t_decrypt P self s pw network detail) (fun _ b => Forall (prior s) b) /\
  raising (t_encrypt P self s pw network) (fun _ b => Forall (prior s) b) /\
  raising (t_confirm_code P self pw s network detail) (fun _ b => Forall (prior s) b) /\
  raising (t_create_new_encrypted_wif P random self s t arg network) (fun _ b => Forall (prior s) b) /\
  raising (t_intermediate_code P random pw lot sequence arg) (fun _ b => Forall (prior []) b).
Proof.
  intros P self s pw network detail random t lot sequence arg HP.
  assert (O : forall x e b, own e b -> Forall (prior x) b).
  { intros x e b [[_ ->]|[_ ->]]; [constructor|]. constructor; [left; reflexivity|constructor]. }
  assert (C : forall b, of_code s b -> Forall (prior s) b).
  { intros b (u & -> & [->|[U _]]); (constructor; [unfold prior; auto|constructor]). }
  split; [|split; [|split; [|split]]].
  - eapply raising_weaken; [|apply decrypt_raising, HP]. intros e b [H|[(_ & _ & ->)|(_ & _ & ->)]]; eauto.
  - eapply raising_weaken; [|apply encrypt_raising, HP]. intros e b [H|[(_ & _ & ->)|(_ & _ & ->)]]; eauto.
  - eapply raising_weaken; [|apply confirm_raising, HP]. intros e b [H|[(_ & _ & ->)|[[_ H]|(_ & tx & K & ->)]]]; eauto.
    constructor; [right; right; left; eauto|]. constructor; [left; reflexivity|constructor].
  - eapply raising_weaken; [|apply create_raising, HP]. intros e b [H|[_ H]]; eauto.
  - eapply raising_weaken; [|apply intermediate_raising]. intros e b [H|(_ & _ & ->)]; eauto.
Qed.
(** The attribute "object" is the whole text, whatever the exception says in its own text *)
Theorem C101_object : forall s u, about_ascii s u \/ about_utf8 s u -> object_of u = Some s.
Proof. intros s u [(st & sp & -> & _)|(st & sp & -> & _)]; reflexivity. Qed.
(** Its own text gives one position and the character there, or the two ends of a run of
    characters: it is the same for two texts that have the same character there, or a run
    of more than one between the same positions *)
Lemma first_run_unique bad s st sp st' sp' : first_run bad s st sp -> first_run bad s st' sp' -> st' = st /\ sp' = sp.
Proof.
  intros (a & b & c & E & -> & -> & Ha & Nb & Hb & Hc) (a' & b' & c' & E' & -> & -> & Ha' & Nb' & Hb' & Hc').
  assert (X : List.length a' = List.length a).
  { destruct (lt_eq_lt_dec (List.length a') (List.length a)) as [[L|L]|L]; [|exact L|]; exfalso.
    - destruct b' as [|x b']; [congruence|]. apply (Ha x); [|apply Hb'; left; reflexivity]. apply (f_equal (fun l => nth_error l (List.length a'))) in E.
      rewrite E' in E. rewrite nth_error_app2 in E by lia. rewrite Nat.sub_diag in E. cbn [app nth_error] in E.
      rewrite nth_error_app1 in E by exact L. symmetry in E. apply nth_error_In in E. exact E.
    - destruct b as [|x b]; [congruence|]. apply (Ha' x); [|apply Hb; left; reflexivity]. apply (f_equal (fun l => nth_error l (List.length a))) in E'.
      rewrite E in E'. rewrite nth_error_app2 in E' by lia. rewrite Nat.sub_diag in E'. cbn [app nth_error] in E'.
      rewrite nth_error_app1 in E' by exact L. symmetry in E'. apply nth_error_In in E'. exact E'. }
  split; [exact X|]. rewrite !app_length, X. f_equal. rewrite E in E'. apply app_inj_l in E'; [|congruence]. destruct E' as [_ E'].
  destruct (lt_eq_lt_dec (List.length b') (List.length b)) as [[L|L]|L]; [|exact L|]; exfalso.
  - destruct c' as [|x c']; [apply (f_equal (@List.length _)) in E'; rewrite !app_length in E'; cbn [List.length] in E'; lia|].
    apply (Hc' x c' eq_refl). apply Hb. apply (f_equal (fun l => nth_error l (List.length b'))) in E'.
    rewrite nth_error_app1 in E' by exact L. rewrite nth_error_app2 in E' by lia. rewrite Nat.sub_diag in E'. cbn [nth_error] in E'.
    apply nth_error_In in E'. exact E'.
  - destruct c as [|x c]; [apply (f_equal (@List.length _)) in E'; rewrite !app_length in E'; cbn [List.length] in E'; lia|].
    apply (Hc x c eq_refl). apply Hb'. apply (f_equal (fun l => nth_error l (List.length b))) in E'.
    rewrite nth_error_app2 in E' by lia. rewrite Nat.sub_diag in E'. cbn [nth_error] in E'.
    rewrite nth_error_app1 in E' by exact L. symmetry in E'. apply nth_error_In in E'. exact E'.
Qed.
Theorem C101_text : forall s s' u u' st sp,
  about_ascii s u /\ about_ascii s' u' /\ first_run non_ascii s st sp /\ first_run non_ascii s' st sp \/
  about_utf8 s u /\ about_utf8 s' u' /\ first_run surrogate s st sp /\ first_run surrogate s' st sp ->
  (sp = S st -> nth_error s st = nth_error s' st) -> text_of u = text_of u'.
Proof.
  assert (T : forall codec reason s s' st sp, (sp = S st -> nth_error s st = nth_error s' st) ->
    unencodable_text codec reason s st sp = unencodable_text codec reason s' st sp).
  { intros codec reason s s' st sp H. unfold unencodable_text. destruct (Nat.eqb sp (S st)) eqn:E.
    - apply Nat.eqb_eq in E. rewrite (H E). reflexivity.
    - destruct (nth_error s st), (nth_error s' st); reflexivity. }
  intros s s' u u' st sp [((a & b & -> & F1) & (a' & b' & -> & F2) & F3 & F4)|((a & b & -> & F1) & (a' & b' & -> & F2) & F3 & F4)] H; cbn [text_of];
    destruct (first_run_unique _ _ _ _ _ _ F1 F3) as [<- <-]; destruct (first_run_unique _ _ _ _ _ _ F2 F4) as [<- <-]; apply T, H.
Qed.
(** ... and the character it shows, if it shows one, is one that cannot be encoded: no
    character of the passphrase that has UTF-8 *)
Theorem C101_shown : forall s st sp c (bad : N -> Prop), first_run bad s st sp -> nth_error s st = Some c -> bad c.
Proof.
  intros s st sp c bad (a & b & r & -> & -> & _ & _ & Nb & Hb & _) H. rewrite nth_error_app2 in H by lia. rewrite Nat.sub_diag in H.
  destruct b as [|x b]; [congruence|]. injection H as <-. apply Hb. left. reflexivity.
Qed.

(** The text itself: the codec, the character or the positions, and the reason *)
Lemma hex_digits_shown n : forall c, (c < 16 ^ N.of_nat n)%N -> exists ds,
  hex_digits n c = List.map (fun d => nth (Z.to_nat d) (str "0123456789abcdef") 0%N) ds /\
  List.length ds = n /\ (forall d, In d ds -> 0 <= d < 16) /\ digits_value 16 ds = Z.of_N c.
Proof.
  induction n as [|n IH]; intros c H.
  - exists []. cbn in H. assert (c = 0%N) by lia. subst c. repeat split; [contradiction|contradiction].
  - assert (H' : (c / 16 < 16 ^ N.of_nat n)%N).
    { apply N.div_lt_upper_bound; [lia|]. rewrite <- N.pow_succ_r'. replace (N.succ (N.of_nat n)) with (N.of_nat (S n)) by lia. exact H. }
    destruct (IH _ H') as (ds & E & L & R & V). exists (ds ++ [Z.of_N (c mod 16)])%list.
    pose proof (N.mod_lt c 16 ltac:(discriminate)) as M. repeat split.
    + cbn [hex_digits]. rewrite map_app, E. cbn [List.map]. rewrite hexdigit_table by exact M. repeat f_equal. lia.
    + rewrite app_length, L. cbn [List.length]. lia.
    + apply in_app_or in H0. destruct H0 as [I|[<-|[]]]; [apply R, I|lia].
    + apply in_app_or in H0. destruct H0 as [I|[<-|[]]]; [apply R, I|lia].
    + assert (A : forall l x, digits_value 16 (l ++ [x]) = digits_value 16 l * 16 + x).
      { clear. induction l as [|y l IH]; intros x; [cbn; lia|]. cbn [app digits_value]. rewrite IH, app_length. cbn [List.length].
        replace (Z.of_nat (List.length l + 1)) with (Z.succ (Z.of_nat (List.length l))) by lia. rewrite Z.pow_succ_r by lia. ring. }
      rewrite A, V. pose proof (N.div_mod c 16 ltac:(discriminate)). lia.
Qed.
Lemma escaped_shown c : (c < 0x110000)%N -> shown_as c (escaped c).
Proof.
  intros H. unfold escaped, shown_as. destruct (N.ltb_spec c 256); [|destruct (N.ltb_spec c 65536)].
  - destruct (hex_digits_shown 2 c ltac:(cbn; lia)) as (ds & E & L & R & V). exists 0x78%N, ds. rewrite E. repeat split; try apply R; try assumption. left. repeat split; [left; reflexivity|exact L|lia].
  - destruct (hex_digits_shown 4 c ltac:(cbn; lia)) as (ds & E & L & R & V). exists 0x75%N, ds. rewrite E. repeat split; try apply R; try assumption. right; left. repeat split; [left; reflexivity|exact L|lia|lia].
  - destruct (hex_digits_shown 8 c ltac:(cbn; lia)) as (ds & E & L & R & V). exists 0x55%N, ds. rewrite E. repeat split; try apply R; try assumption. right; right. repeat split; [left; reflexivity|exact L|lia].
Qed.
Theorem C101_form : forall s u, (forall c, In c s -> (c < 0x110000)%N) ->
  forall codec reason, about_ascii s u /\ codec = str "ascii" /\ reason = str "ordinal not in range(128)" \/
                       about_utf8 s u /\ codec = str "utf-8" /\ reason = str "surrogates not allowed" ->
  exists st sp, (codec = str "ascii" /\ first_run non_ascii s st sp \/ codec = str "utf-8" /\ first_run surrogate s st sp) /\
    (sp = S st -> exists c t, nth_error s st = Some c /\ shown_as c t /\
       text_of u = (str "'" ++ codec ++ str "' codec can't encode character '" ++ t ++ str "' in position " ++ dec (Z.of_nat st) ++ str ": " ++ reason)%list) /\
    (sp <> S st -> text_of u =
       (str "'" ++ codec ++ str "' codec can't encode characters in position " ++ dec (Z.of_nat st) ++ str "-" ++ dec (Z.of_nat (sp - 1)) ++ str ": " ++ reason)%list).
Proof.
  assert (X : forall bad s st sp, first_run bad s st sp -> (st < sp)%nat /\ exists c, nth_error s st = Some c).
  { intros bad s st sp (a & b & r & -> & -> & -> & _ & Nb & _). rewrite app_length. destruct b as [|x b]; [congruence|]. cbn [List.length].
    split; [lia|]. exists x. rewrite nth_error_app2 by lia. rewrite Nat.sub_diag. reflexivity. }
  intros s u Hs codec reason H.
  assert (G : exists c r st sp, u = Unencodable c r s st sp /\ str c = codec /\ str r = reason /\ (codec = str "ascii" /\ first_run non_ascii s st sp \/ codec = str "utf-8" /\ first_run surrogate s st sp)).
  { destruct H as [((st & sp & -> & F) & -> & ->)|((st & sp & -> & F) & -> & ->)]; do 4 eexists; (split; [reflexivity|]; split; [reflexivity|]; split; [reflexivity|]); [left|right]; (split; [reflexivity|exact F]). }
  destruct G as (c & r & st & sp & -> & <- & <- & F). exists st, sp. split; [exact F|].
  assert (Y : (st < sp)%nat /\ exists c, nth_error s st = Some c) by (destruct F as [[_ F]|[_ F]]; exact (X _ _ _ _ F)).
  destruct Y as (L & x & E). cbn [text_of]. unfold unencodable_text. rewrite E. split; intros Q.
  - rewrite Q, Nat.eqb_refl. exists x, (escaped x). split; [reflexivity|]. split; [|reflexivity].
    apply escaped_shown, Hs. exact (nth_error_In _ _ E).
  - replace (Nat.eqb sp (S st)) with false by (symmetry; apply Nat.eqb_neq; exact Q). repeat f_equal. lia.
Qed.

(** ** Examples *)
(** "pass", a lone surrogate, "word": the text names the one character, its attribute is all *)
Definition broken : pystr := (str "pass" ++ [0xD800%N] ++ str "word")%list.
Example C101_message : let u := Unencodable "utf-8" "surrogates not allowed" broken 4 5 in
  t_utf8_encode broken = Fails u [] /\ object_of u = Some broken /\
  text_of u = (str "'utf-8' codec can't encode character '\ud800' in position 4: surrogates not allowed").
Proof. cbv zeta. split; [vm_compute; reflexivity|]. split; [reflexivity|]. vm_compute. reflexivity. Qed.
(** two at once: only the positions *)
Example C101_message_run :
  text_of (Unencodable "ascii" "ordinal not in range(128)" [0x61; 0xE9; 0x20AC; 0x62; 0xE9]%N 1 3) =
  (str "'ascii' codec can't encode characters in position 1-2: ordinal not in range(128)") /\
  t_ascii_encode [0x61; 0xE9; 0x20AC; 0x62; 0xE9]%N = Fails (Unencodable "ascii" "ordinal not in range(128)" [0x61; 0xE9; 0x20AC; 0x62; 0xE9]%N 1 3) [] /\
  escaped 0xE9 = str "\xe9" /\ escaped 0x20AC = str "\u20ac" /\ escaped 0x1F600 = str "\U0001f600".
Proof. split; [vm_compute; reflexivity|]. split; [vm_compute; reflexivity|]. repeat split; vm_compute; reflexivity. Qed.
(** a passphrase with a lone surrogate: intermediate_code raises the exception about it *)
Example C101_phrase : exists u, about_utf8 broken u /\ t_intermediate_code toy (repeat x11 8) broken None None PNone = Fails u [].
Proof.
  exists (Unencodable "utf-8" "surrogates not allowed" broken 4 5). split; [|vm_compute; reflexivity].
  exists 4%nat, 5%nat. split; [reflexivity|]. exists (str "pass"), [0xD800%N], (str "word"). split; [reflexivity|]. split; [reflexivity|]. split; [reflexivity|].
  split; [intros x H; cbn in H; unfold surrogate; intuition lia|]. split; [discriminate|].
  split; [intros x [<-|[]]; unfold surrogate; lia|]. intros x r E. injection E as <- _. unfold surrogate. lia.
Qed.
(** a code with a character too many: the library's exception after the ValueError *)
Example C101_code : t_confirm_code toy btc (str "x") (str "cfrm") None false = Fails (Shown (Lib CError "Invalid confirmation code")) [Shown (Builtin ValueError)] /\
  t_create_new_encrypted_wif toy (repeat x11 24) btc (str "passphrase") (str "wif") PNone None =
    Fails (Shown (Lib CPassphraseError "Invalid intermediate passphrase")) [Shown (Builtin ValueError)].
Proof. split; vm_compute; reflexivity. Qed.
(** the three results of reading a key that is out of range, and of a foreign code *)
Example C101_key : t_PrivateKey_from_bytes (repeat x00 32) = Fails (Shown (Lib CSecp256k1Error "Invalid private key bytes")) [Malformed] /\
  t_PublicKey_from_bytes [x02] = Fails (Shown (Lib CSecp256k1Error "Invalid public key bytes")) [Malformed].
Proof. split; vm_compute; reflexivity. Qed.
(** é in the text to be decrypted, in a session that exists *)
Example C101_e_acute : exists u, about_ascii [0xE9%N] u /\ t_decrypt toy btc [0xE9%N] (str "x") None false = Fails u [].
Proof.
  destruct (C101_not_ascii toy btc None 0x80 0 [0xE9%N] (str "x") [] [] (repeat x11 24) PNone (repeat x11 24) false btc_session) as (u & U & D & _).
  - intros A. inversion A as [|x r H]. discriminate.
  - left. split; [left; reflexivity|reflexivity].
  - exists u. split; assumption.
Qed.
(** a confirmation code whose point cannot be read: two exceptions above "Incorrect passphrase" *)
Definition pointless : pystr :=
  match check_encode toy ([x64; x3b; xf6; xa8; x9a; x04] ++ repeat x11 12 ++ repeat x00 33) base58_alphabet with Ok s => s | Raise _ => [] end.
Example C101_point : t_confirm_code toy btc (str "x") pointless None false =
  Fails (Shown (Lib CPassphraseError "Incorrect passphrase")) [Shown (Lib CSecp256k1Error "Invalid public key bytes"); Malformed].
Proof. vm_compute. reflexivity. Qed.
