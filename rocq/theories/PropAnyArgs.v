(** * C71: arguments of any type *)
From Coq Require Import Lia.
From Verif Require Import Exceptions ErrorFacts Py Prims Spec PyFacts Utils Base58 Crypto Secp256k1 Cryptocurrencies P2PKHAddress Wif Bip38 SpecSession SpecReads Base58Facts ReadFacts Sessions Toy LotText AnyArgs.

(** Values of the declared types: Optional[str], Union[str, bytes, None], numbers as in LotText. *)
Definition optional (o : option pystr) : value := match o with Some s => VStr s | None => VNone end.
Definition number (a : numarg) : value := match a with NNone => VNone | NInt z => VInt z | NText s => VStr s end.
Definition data (a : pyarg) : value :=
  match a with PNone => VNone | PBytes b => VBytes b | PStr s => VStr s | POther t => VOther t [] [] end.
Definition is_text (v : value) : Prop := exists s, v = VStr s.
Definition type_error {A} : res A := Raise (Builtin TypeError).

Lemma bind_ext {A B} (x : res A) (f g : A -> res B) : (forall a, f a = g a) -> bind x f = bind x g.
Proof. intros H. destruct x; cbn; [apply H|reflexivity]. Qed.
Lemma select_any self n : select_network_any self (optional n) = select_network self n.
Proof. destruct n as [[|c r]|]; reflexivity. Qed.
Lemma truth_data a : truth (data a) = truthy a.
Proof. destruct a as [| [|]| [|]|]; reflexivity. Qed.
Lemma as_arg_data a : as_arg (data a) = a.
Proof. destruct a; reflexivity. Qed.
Lemma truth_number a : truth (number a) = truthy_num a.
Proof. destruct a as [| |[|]]; reflexivity. Qed.
Lemma none_number a : is_VNone (number a) = num_none a.
Proof. destruct a; reflexivity. Qed.
Lemma shown_number a : shown (number a) = num_text a.
Proof. destruct a; reflexivity. Qed.
Lemma int_number rw a : int_any rw (number a) = int_of rw a.
Proof. destruct a; reflexivity. Qed.

(** ** On the declared types these are the methods of Bip38.v *)
Theorem C71_init : forall c s, init_any c (VStr s) = bip38_init c s.
Proof. intros [] s; reflexivity. Qed.
Theorem C71_intermediate : forall P rw u pw lot sequence salt,
  intermediate_code_value P rw u (VStr pw) (number lot) (number sequence) (data salt) = intermediate_code_any P rw u pw lot sequence salt.
Proof.
  intros P rw u pw lot sequence salt. unfold intermediate_code_value, intermediate_code_any.
  rewrite truth_data, as_arg_data, !truth_number, !none_number, !shown_number, !int_number. reflexivity.
Qed.
Theorem C71_encrypt : forall P self wif pw n, encrypt_any P self (VStr wif) (VStr pw) (optional n) = encrypt P self wif pw n.
Proof. intros P self wif pw n. unfold encrypt_any, encrypt. rewrite select_any. reflexivity. Qed.
Theorem C71_create : forall P u self code t seed n,
  create_any P u self (VStr code) (VStr t) (data seed) (optional n) = create_new_encrypted_wif P u self code t seed n.
Proof.
  intros P u self code t seed n. unfold create_any, create_new_encrypted_wif. rewrite select_any, truth_data, as_arg_data. reflexivity.
Qed.
Lemma derive_any P pw f o : derive_pass_factor_any P (VStr pw) f o = derive_pass_factor P pw f o.
Proof. reflexivity. Qed.
Theorem C71_confirm : forall P self pw code n detail,
  confirm_any P self (VStr pw) (VStr code) (optional n) (VBool detail) = confirm_code P self pw code n detail.
Proof. intros P self pw code n d. unfold confirm_any, confirm_code. rewrite select_any. reflexivity. Qed.
Theorem C71_decrypt : forall P self e pw n detail,
  decrypt_any P self (VStr e) (VStr pw) (optional n) (VBool detail) = decrypt P self e pw n detail.
Proof. intros P self e pw n d. unfold decrypt_any, decrypt. rewrite select_any. reflexivity. Qed.

(** ** Specification *)
(** Values that Python treats as false; class names as Python shows them. *)
Definition blank (v : value) : Prop :=
  v = VNone \/ v = VBool false \/ v = VInt 0 \/ v = VBytes [] \/ v = VStr [] \/ exists c s, v = VOther false c s.
Definition has_class (v : value) (c : pystr) : Prop :=
  v = VNone /\ c = str "<class 'NoneType'>" \/ (exists b, v = VBool b) /\ c = str "<class 'bool'>" \/
  (exists z, v = VInt z) /\ c = str "<class 'int'>" \/ (exists b, v = VBytes b) /\ c = str "<class 'bytes'>" \/
  (exists s, v = VStr s) /\ c = str "<class 'str'>" \/ exists t s, v = VOther t c s.
Definition usable_network (names : list pystr) (v : value) : Prop := blank v \/ exists s, v = VStr s /\ In s names.
Definition usable_data (v : value) : Prop := blank v \/ (exists b, v = VBytes b) \/ exists s b, v = VStr s /\ fromhex s = Some b.

Lemma truth_blank v : truth v = false <-> blank v.
Proof.
  split.
  - destruct v as [|[|]|z|[|]|[|]|[|]]; cbn [truth]; intros H; try discriminate; unfold blank; eauto 10.
    apply negb_false_iff, Z.eqb_eq in H. subst. auto.
  - intros [->|[->|[->|[->|[->|(c & s & ->)]]]]]; reflexivity.
Qed.
Lemma truth_not_blank v : ~ blank v -> truth v = true.
Proof. intros H. destruct (truth v) eqn:E; [reflexivity|]. apply truth_blank in E. contradiction. Qed.
Lemma class_text v c : has_class v c -> c = type_text v.
Proof. intros [(-> & ->)|[((b & ->) & ->)|[((b & ->) & ->)|[((b & ->) & ->)|[((b & ->) & ->)|(t & s & ->)]]]]]; reflexivity. Qed.
Lemma class_exists v : exists c, has_class v c.
Proof. unfold has_class. destruct v; eexists; eauto 12. Qed.

(** ** The network argument *)
Lemma select_blank self v : blank v -> select_network_any self v = select_network_any self VNone.
Proof. intros B. apply truth_blank in B. unfold select_network_any. rewrite B. reflexivity. Qed.
Lemma select_other self v : ~ blank v -> ~ is_text v ->
  select_network_any self v = Raise (lib_error CNetworkError (str "Wrong network type") None (ExpList (s_networks self)) (type_text v)).
Proof.
  intros B T. unfold select_network_any. rewrite (truth_not_blank _ B). destruct v; try reflexivity. destruct T. eexists. reflexivity.
Qed.
Lemma select_usable c n0 self v : bip38_init (CoinClass c) n0 = Ok self -> usable_network (s_networks self) v ->
  exists n w a, select_network_any self v = Ok n /\ dict_get n (c_networks (s_cryptocurrency self)) = Some (w, a).
Proof.
  intros I U. destruct (init_inv _ _ _ I) as (Ec & En & E0 & IN).
  assert (G : forall s, In s (List.map fst (c_networks c)) -> exists w a, dict_get s (c_networks c) = Some (w, a)).
  { clear. intros s. induction (c_networks c) as [|[k [w a]] r IH]; [contradiction|]. intros H. cbn [dict_get].
    destruct (str_eqb s k) eqn:E; [eauto|]. cbn [List.map fst In] in H. destruct H as [<-|H]; [|exact (IH H)].
    assert (str_eqb k k = true) by (apply str_eqb_spec; reflexivity). congruence. }
  rewrite Ec. 
  assert (S : select_network_any self v = select_network_any self (VStr n0) /\ blank v \/ exists s, v = VStr s /\ In s (s_networks self) /\ s <> []).
  { destruct U as [B|(s & -> & H)].
    - left. split; [|exact B]. apply truth_blank in B. unfold select_network_any. rewrite B, E0. destruct n0; reflexivity.
    - destruct s; [left; split; [|unfold blank; auto 8]|right; eexists; repeat split; [exact H|discriminate]].
      unfold select_network_any. cbn [truth]. rewrite E0. destruct n0; reflexivity. }
  destruct S as [(S & B)|(s & -> & H & NE)].
  - destruct (G n0 IN) as (w & a & D). exists n0, w, a. split; [|exact D]. rewrite S. unfold select_network_any.
    replace (if truth (VStr n0) then VStr n0 else VStr (s_network self)) with (VStr n0) by (rewrite E0; destruct n0; reflexivity).
    rewrite En. apply str_in_spec in IN. rewrite IN. reflexivity.
  - rewrite En in H. destruct (G s H) as (w & a & D). exists s, w, a. split; [|exact D]. unfold select_network_any.
    replace (truth (VStr s)) with true by (destruct s; [contradiction|reflexivity]). rewrite En. apply str_in_spec in H. rewrite H. reflexivity.
Qed.

(** A value that is neither text nor false: NetworkError naming its class, whatever
    the other arguments are. *)
Theorem C71_network_type : forall P c n0 self v cls, bip38_init (CoinClass c) n0 = Ok self -> ~ blank v -> ~ is_text v -> has_class v cls ->
  let e := Lib CNetworkError (error_text "Wrong network type" (quoted_list (List.map fst (c_networks c))) cls) in
  (forall wif pw, encrypt_any P self wif pw v = Raise e) /\
  (forall random code t seed, create_any P random self code t seed v = Raise e) /\
  (forall pw code detail, confirm_any P self pw code v detail = Raise e) /\
  (forall s pw detail, decrypt_any P self s pw v detail = Raise e).
Proof.
  intros P c n0 self v cls I B T C e. destruct (init_inv _ _ _ I) as (Ec & En & E0 & IN). apply class_text in C.
  assert (S : select_network_any self v = Raise e).
  { rewrite select_other by assumption. rewrite En, <- C. rewrite lib_error_list; [reflexivity|]. intros Z. rewrite Z in IN. contradiction. }
  repeat split; intros; [unfold encrypt_any|unfold create_any|unfold confirm_any|unfold decrypt_any]; rewrite S; reflexivity.
Qed.
Theorem C71_init_type : forall c v cls, c_networks c <> [] -> ~ is_text v -> has_class v cls ->
  init_any (CoinClass c) v = Raise (Lib CNetworkError (error_text "Wrong network type" (quoted_list (List.map fst (c_networks c))) cls)).
Proof.
  intros c v cls N T C. apply class_text in C. subst cls. rewrite <- lib_error_list by (intros Z; apply map_eq_nil in Z; contradiction).
  destruct v; try reflexivity. destruct T. eexists. reflexivity.
Qed.
(** A false value counts as no argument. *)
Theorem C71_network_blank : forall P self v, blank v ->
  (forall wif pw, encrypt_any P self wif pw v = encrypt_any P self wif pw VNone) /\
  (forall random code t seed, create_any P random self code t seed v = create_any P random self code t seed VNone) /\
  (forall pw code detail, confirm_any P self pw code v detail = confirm_any P self pw code VNone detail) /\
  (forall s pw detail, decrypt_any P self s pw v detail = decrypt_any P self s pw VNone detail).
Proof.
  intros P self v B. pose proof (select_blank self v B) as S.
  repeat split; intros; [unfold encrypt_any|unfold create_any|unfold confirm_any|unfold decrypt_any]; rewrite S; reflexivity.
Qed.

(** ** Keys and codes that are not text: TypeError *)
Lemma get_usable v random : usable_data v -> exists b, (if truth v then get_bytes (as_arg v) true else Ok random) = Ok b.
Proof.
  intros [B|[(b & ->)|(s & b & -> & F)]].
  - apply truth_blank in B. rewrite B. eauto.
  - destruct b; cbn; eauto.
  - destruct s; cbn [truth]; [eauto|]. unfold as_arg, get_bytes. cbn [truthy negb]. rewrite F. eauto.
Qed.
Theorem C71_text_type : forall P c n0 self n v, bip38_init (CoinClass c) n0 = Ok self -> usable_network (s_networks self) n -> ~ is_text v ->
  (forall pw, encrypt_any P self v pw n = type_error) /\
  (forall random t seed, usable_data seed -> create_any P random self v t seed n = type_error) /\
  (forall pw detail, confirm_any P self pw v n detail = type_error) /\
  (forall pw detail, decrypt_any P self v pw n detail = type_error).
Proof.
  intros P c n0 self n v I U T. destruct (select_usable _ _ _ _ I U) as (net & w & a & S & D).
  repeat split; intros; [unfold encrypt_any|unfold create_any|unfold confirm_any|unfold decrypt_any]; rewrite S; cbn [bind].
  - unfold get_wif_type_value, wif_prefix_of. rewrite D. cbn [bind]. destruct v; try reflexivity. destruct T. eexists. reflexivity.
  - destruct (get_usable seed random H) as (b & ->). cbn [bind]. destruct v; try reflexivity. destruct T. eexists. reflexivity.
  - destruct v; try reflexivity. destruct T. eexists. reflexivity.
  - destruct v; try reflexivity. destruct T. eexists. reflexivity.
Qed.

(** ** A seed or salt that is neither text nor bytes nor false: TypeError *)
Lemma get_other v : ~ blank v -> ~ is_text v -> ~ (exists b, v = VBytes b) -> get_bytes (as_arg v) true = type_error /\ truth v = true.
Proof.
  intros B T Y. pose proof (truth_not_blank _ B) as E. split; [|exact E].
  destruct v; cbn [as_arg]; unfold get_bytes; cbn [truthy]; try (rewrite E; reflexivity); [discriminate|destruct Y; eauto|destruct T; eexists; reflexivity].
Qed.
Theorem C71_seed_type : forall P c n0 self n seed, bip38_init (CoinClass c) n0 = Ok self -> usable_network (s_networks self) n ->
  ~ blank seed -> ~ is_text seed -> ~ (exists b, seed = VBytes b) ->
  forall random code t, create_any P random self code t seed n = type_error.
Proof.
  intros P c n0 self n v I U B T Y random code t. destruct (select_usable _ _ _ _ I U) as (net & w & a & S & D).
  destruct (get_other v B T Y) as [G E]. unfold create_any. rewrite S. cbn [bind]. rewrite E, G. reflexivity.
Qed.
Theorem C71_salt_type : forall P salt, ~ blank salt -> ~ is_text salt -> ~ (exists b, salt = VBytes b) ->
  forall rw random pw lot sequence, intermediate_code_value P rw random pw lot sequence salt = type_error.
Proof.
  intros P v B T Y rw random pw lot sequence. destruct (get_other v B T Y) as [G E]. unfold intermediate_code_value. rewrite E, G. reflexivity.
Qed.
(** ** detail counts as true or false *)
Theorem C71_detail : forall P self pw t n d,
  (blank d -> confirm_any P self pw t n d = confirm_any P self pw t n (VBool false) /\ decrypt_any P self t pw n d = decrypt_any P self t pw n (VBool false)) /\
  (~ blank d -> confirm_any P self pw t n d = confirm_any P self pw t n (VBool true) /\ decrypt_any P self t pw n d = decrypt_any P self t pw n (VBool true)).
Proof.
  intros P self pw t n d.
  assert (G : forall b, truth d = b -> confirm_any P self pw t n d = confirm_any P self pw t n (VBool b) /\ decrypt_any P self t pw n d = decrypt_any P self t pw n (VBool b)).
  { intros b E. split; [unfold confirm_any|unfold decrypt_any, decrypt_no_ec_any, decrypt_ec_any]; rewrite E; reflexivity. }
  split; intros B; apply G; [apply truth_blank, B|apply truth_not_blank, B].
Qed.

(** ** A passphrase that is not text *)
Definition refuses {A} (m : value -> res A) : Prop :=
  forall v, ~ is_text v -> m v = type_error \/ (forall s, m v = m (VStr s)) /\ (forall a, m v <> Ok a).
Lemma refuses_raise A e : refuses (fun _ => Raise e : res A).
Proof. intros v _. right. split; [reflexivity|discriminate]. Qed.
Lemma refuses_after A B (x : res A) (f : A -> value -> res B) : (forall a, refuses (f a)) -> refuses (fun v => bind x (fun a => f a v)).
Proof. intros H. destruct x; cbn [bind]; [apply H|apply refuses_raise]. Qed.
Lemma refuses_first A B (m : value -> res A) (f : A -> value -> res B) : refuses m -> refuses (fun v => bind (m v) (fun a => f a v)).
Proof.
  intros H v T. destruct (H v T) as [E|(E & N)]; [left; rewrite E; reflexivity|right].
  destruct (m v) as [a|e] eqn:M; [destruct (N a); reflexivity|]. split; [intros s; rewrite <- (E s); reflexivity|discriminate].
Qed.
Lemma refuses_if A (b : bool) (m n : value -> res A) : refuses m -> refuses n -> refuses (fun v => if b then m v else n v).
Proof. destruct b; auto. Qed.
Lemma refuses_scrypt P salt a b c l : refuses (fun v => scrypt_value P v salt a b c l).
Proof. intros v T. left. destruct v; try reflexivity. destruct T. eexists. reflexivity. Qed.
Ltac refuse :=
  repeat first
    [ apply refuses_scrypt | apply refuses_raise
    | apply refuses_if
    | apply refuses_after; intros ?
    | apply refuses_first
    | match goal with |- refuses (fun v => match ?x with (_, _) => _ end) => destruct x end ].
Lemma refuses_derive P f o : refuses (fun v => derive_pass_factor_any P v f o).
Proof. unfold derive_pass_factor_any. destruct (int_in _ _); refuse. Qed.
Lemma refuses_not A e (m : res A) : m = Raise e -> forall a, m <> Ok a.
Proof. congruence. Qed.

Lemma pass_intermediate P rw random lot sequence salt : refuses (fun pw => intermediate_code_value P rw random pw lot sequence salt).
Proof. unfold intermediate_code_value. refuse. Qed.
Lemma pass_encrypt P self wif n : refuses (fun pw => encrypt_any P self wif pw n).
Proof. unfold encrypt_any. refuse. Qed.
Lemma pass_confirm P self code n detail : refuses (fun pw => confirm_any P self pw code n detail).
Proof. unfold confirm_any. refuse. apply refuses_derive. Qed.
Lemma pass_decrypt P self e n detail : refuses (fun pw => decrypt_any P self e pw n detail).
Proof. unfold decrypt_any, decrypt_no_ec_any, decrypt_ec_any. refuse; apply refuses_derive. Qed.

(** The call raises TypeError, or what it raises with every passphrase; it never
    returns a result. *)
Theorem C71_passphrase_type : forall P self v, ~ is_text v ->
  (forall rw random lot sequence salt, let m pw := intermediate_code_value P rw random pw lot sequence salt in
     m v = type_error \/ (forall s, m v = m (VStr s)) /\ (forall a, m v <> Ok a)) /\
  (forall wif n, let m pw := encrypt_any P self wif pw n in
     m v = type_error \/ (forall s, m v = m (VStr s)) /\ (forall a, m v <> Ok a)) /\
  (forall code n detail, let m pw := confirm_any P self pw code n detail in
     m v = type_error \/ (forall s, m v = m (VStr s)) /\ (forall a, m v <> Ok a)) /\
  (forall e n detail, let m pw := decrypt_any P self e pw n detail in
     m v = type_error \/ (forall s, m v = m (VStr s)) /\ (forall a, m v <> Ok a)).
Proof.
  intros P self v T. split; [|split; [|split]].
  - intros rw random lot sequence salt. exact (pass_intermediate P rw random lot sequence salt v T).
  - intros wif n. exact (pass_encrypt P self wif n v T).
  - intros code n detail. exact (pass_confirm P self code n detail v T).
  - intros e n detail. exact (pass_decrypt P self e n detail v T).
Qed.

(** ** A WIF type that is not text *)
(** str(v) *)
Definition shows (v : value) (s : pystr) : Prop :=
  v = VNone /\ s = str "None" \/ v = VBool true /\ s = str "True" \/ v = VBool false /\ s = str "False" \/
  (exists z, v = VInt z /\ s = dec z) \/ (exists b, v = VBytes b /\ s = bytes_repr b) \/ v = VStr s \/ exists t c, v = VOther t c s.
Lemma shows_shown v s : shows v s -> shown v = s.
Proof. intros [(-> & ->)|[(-> & ->)|[(-> & ->)|[(z & -> & ->)|[(b & -> & ->)|[->|(t & c & ->)]]]]]]; reflexivity. Qed.
Theorem C71_wif_type : forall P c n0 self n random code d seed t s, prims_ok P -> bip38_init (CoinClass c) n0 = Ok self -> usable_network (s_networks self) n ->
  usable_data seed -> base58check_reads P code d -> List.length d = 49%nat -> ~ is_text t -> shows t s ->
  create_any P random self (VStr code) t seed n = Raise (Lib CWIFError (error_text "Invalid wif type" (str "'wif', 'wif-compressed'") s)).
Proof.
  intros P c n0 self n random code d seed t s HP I U D R L T S. destruct (select_usable _ _ _ _ I U) as (net & w & a & N & _).
  destruct (get_usable seed random D) as (b & G). apply (proj1 (reads58check P HP code d)) in R. apply shows_shown in S. subst s.
  unfold create_any. rewrite N. cbn [bind]. rewrite G. cbn [bind]. unfold check_decode_value. change base58_alphabet with bitcoin_alphabet. rewrite R. cbn [bind].
  rewrite L. cbn [Nat.eqb negb].
  assert (Q : forall x, equals t x = false) by (intros x; destruct t; try reflexivity; destruct T; eexists; reflexivity).
  rewrite !Q. cbn [bind]. rewrite lib_error_list by discriminate. reflexivity.
Qed.

(** ** Lot and sequence *)
Definition salt_bytes (random : bytes) (v : value) (b : bytes) : Prop :=
  blank v /\ b = random \/ v = VBytes b /\ b <> [] \/ exists s, v = VStr s /\ s <> [] /\ fromhex s = Some b.
Lemma salt_get random v b : salt_bytes random v b -> (if truth v then get_bytes (as_arg v) true else Ok random) = Ok b.
Proof.
  intros [(B & ->)|[(-> & N)|(s & -> & N & F)]].
  - apply truth_blank in B. rewrite B. reflexivity.
  - destruct b; [contradiction|reflexivity].
  - destruct s; [contradiction|]. cbn [truth]. unfold as_arg, get_bytes. cbn [truthy negb]. rewrite F. reflexivity.
Qed.
Lemma not_blank_none v : ~ blank v -> is_VNone v = false.
Proof. intros B. destruct v; try reflexivity. destruct B. left. reflexivity. Qed.
(** Both given: True counts as 1, ASCII bytes as text, other objects are refused. *)
Theorem C71_lot_type : forall P rw random pw v salt, salt_bytes random v salt -> List.length salt = 4%nat \/ List.length salt = 8%nat ->
  (forall t c s sequence, ~ blank (VOther t c s) -> ~ blank sequence -> intermediate_code_value P rw random pw (VOther t c s) sequence v = type_error) /\
  (forall t c s l, ~ blank (VOther t c s) -> l <> 0 -> intermediate_code_value P rw random pw (VInt l) (VOther t c s) v = type_error) /\
  (forall sequence, ~ blank sequence -> intermediate_code_value P rw random pw (VBool true) sequence v = intermediate_code_value P rw random pw (VInt 1) sequence v) /\
  (forall lot, ~ blank lot -> intermediate_code_value P rw random pw lot (VBool true) v = intermediate_code_value P rw random pw lot (VInt 1) v) /\
  (forall b sequence, b <> [] -> is_ascii (List.map Byte.to_N b) -> ~ blank sequence ->
     intermediate_code_value P rw random pw (VBytes b) sequence v = intermediate_code_value P rw random pw (VStr (List.map Byte.to_N b)) sequence v) /\
  (forall b lot, b <> [] -> is_ascii (List.map Byte.to_N b) -> ~ blank lot ->
     intermediate_code_value P rw random pw lot (VBytes b) v = intermediate_code_value P rw random pw lot (VStr (List.map Byte.to_N b)) v).
Proof.
  intros P rw random pw v salt S L.
  assert (ASC : forall b, is_ascii (List.map Byte.to_N b) -> int_any rw (VBytes b) = int_any rw (VStr (List.map Byte.to_N b))).
  { intros b A. cbn [int_any]. unfold int_of_str. replace (forallb (fun c => (c <? 128)%N) (List.map Byte.to_N b)) with true; [reflexivity|].
    symmetry. apply forallb_forall. intros c Hc. apply N.ltb_lt. unfold is_ascii in A. rewrite Forall_forall in A. apply A, Hc. }
  assert (NB : forall b, b <> [] -> truth (VBytes b) = true /\ truth (VStr (List.map Byte.to_N b)) = true).
  { intros [|x b] N; [contradiction|]. split; reflexivity. }
  repeat split; intros; unfold intermediate_code_value; rewrite (salt_get _ _ _ S); cbn [bind];
    repeat match goal with B : ~ blank ?x |- _ => rewrite ?(not_blank_none x B), ?(truth_not_blank x B); clear B end;
    try match goal with N : ?l <> 0 |- _ => apply Z.eqb_neq in N; cbn [truth]; rewrite N end;
    try match goal with N : ?b <> [] |- _ => destruct (NB _ N) as [-> ->] end;
    cbn [is_VNone truth negb andb orb Z.eqb int_any]; try (destruct L as [-> | ->]; reflexivity).
  - change (match int_of_str (fun s : pystr => s) (List.map Byte.to_N b) with Some z => Ok z | None => Raise (Builtin ValueError) end) with (int_any rw (VBytes b)).
    rewrite (ASC b) by assumption. destruct L as [-> | ->]; reflexivity.
  - change (match int_of_str (fun s : pystr => s) (List.map Byte.to_N b) with Some z => Ok z | None => Raise (Builtin ValueError) end) with (int_any rw (VBytes b)).
    rewrite (ASC b) by assumption. destruct L as [-> | ->]; reflexivity.
Qed.

(** ** Whatever returns a result was given text where text is declared *)
Lemma text_dec v : {is_text v} + {~ is_text v}.
Proof. destruct v; try (right; intros (s & E); discriminate). left. eexists. reflexivity. Qed.
Lemma blank_dec v : {blank v} + {~ blank v}.
Proof. destruct (truth v) eqn:E; [right; intros B; apply truth_blank in B; congruence|left; apply truth_blank, E]. Qed.
Lemma must_text A (m : value -> res A) v a : refuses m -> m v = Ok a -> is_text v.
Proof. intros H E. destruct (text_dec v) as [T|T]; [exact T|]. destruct (H v T) as [X|(_ & X)]; [rewrite X in E; discriminate|destruct (X a E)]. Qed.
Lemma select_text self v n : select_network_any self v = Ok n -> blank v \/ is_text v.
Proof.
  intros E. destruct (text_dec v) as [T|T]; [auto|]. destruct (blank_dec v) as [B|B]; [auto|]. rewrite select_other in E by assumption. discriminate.
Qed.
Definition data_given (v : value) : Prop := blank v \/ is_text v \/ exists b, v = VBytes b.
Lemma data_text v (random b : bytes) : (if truth v then get_bytes (as_arg v) true else Ok random) = Ok b -> data_given v.
Proof.
  intros E. unfold data_given. destruct (blank_dec v) as [B|B]; [auto|]. destruct (text_dec v) as [T|T]; [auto|].
  destruct v as [| | |y| |]; try solve [right; right; eauto];
  match goal with |- context[?u = VBytes _] => destruct (get_other u B T) as [G X]; [intros (y & Y); discriminate|rewrite X, G in E; discriminate] end.
Qed.
Theorem C71_success : forall P self,
  (forall rw random pw lot sequence salt code, intermediate_code_value P rw random pw lot sequence salt = Ok code -> is_text pw /\ data_given salt) /\
  (forall wif pw n r, encrypt_any P self wif pw n = Ok r -> is_text wif /\ is_text pw /\ (blank n \/ is_text n)) /\
  (forall random code t seed n r, create_any P random self code t seed n = Ok r -> is_text code /\ is_text t /\ data_given seed /\ (blank n \/ is_text n)) /\
  (forall pw code n detail r, confirm_any P self pw code n detail = Ok r -> is_text pw /\ is_text code /\ (blank n \/ is_text n)) /\
  (forall e pw n detail r, decrypt_any P self e pw n detail = Ok r -> is_text e /\ is_text pw /\ (blank n \/ is_text n)).
Proof.
  intros P self. split; [|split; [|split; [|split]]].
  - intros rw random pw lot sequence salt code E. split.
    + exact (must_text _ _ pw code (pass_intermediate P rw random lot sequence salt) E).
    + unfold intermediate_code_value in E. destruct (if truth salt then get_bytes (as_arg salt) true else Ok random) eqn:D; [|discriminate].
      apply data_text in D. exact D.
  - intros wif pw n r E. split; [|split].
    + unfold encrypt_any in E. destruct (select_network_any self n); [|discriminate]. cbn [bind] in E.
      destruct (get_wif_type_value wif (s_cryptocurrency self) a) eqn:G; [|discriminate]. unfold get_wif_type_value in G.
      destruct (wif_prefix_of _ _); [|discriminate]. cbn [bind] in G. destruct wif; try discriminate. eexists. reflexivity.
    + exact (must_text _ _ pw r (pass_encrypt P self wif n) E).
    + unfold encrypt_any in E. destruct (select_network_any self n) eqn:S; [|discriminate]. apply (select_text _ _ _ S).
  - intros random code t seed n r E. unfold create_any in E. destruct (select_network_any self n) eqn:S; [|discriminate]. apply select_text in S. cbn [bind] in E.
    destruct (if truth seed then get_bytes (as_arg seed) true else Ok random) eqn:D; [|discriminate]. apply data_text in D. cbn [bind] in E.
    destruct code as [| | | |code|]; try discriminate. split; [eexists; reflexivity|]. cbn [check_decode_value] in E.
    destruct (check_decode P code _) as [d|e] eqn:C; [|destruct (is_value_error e); discriminate]. cbn [bind] in E.
    destruct (negb (Nat.eqb (List.length d) 49)); [discriminate|]. split; [|split; [exact D|exact S]].
    destruct t; try discriminate. eexists. reflexivity.
  - intros pw code n detail r E. split; [|split].
    + exact (must_text _ _ pw r (pass_confirm P self code n detail) E).
    + unfold confirm_any in E. destruct (select_network_any self n); [|discriminate]. cbn [bind] in E. destruct code; try discriminate. eexists. reflexivity.
    + unfold confirm_any in E. destruct (select_network_any self n) eqn:S; [|discriminate]. apply (select_text _ _ _ S).
  - intros e pw n detail r E. split; [|split].
    + unfold decrypt_any in E. destruct (select_network_any self n); [|discriminate]. cbn [bind] in E. destruct e; try discriminate. eexists. reflexivity.
    + exact (must_text _ _ pw r (pass_decrypt P self e n detail) E).
    + unfold decrypt_any in E. destruct (select_network_any self n) eqn:S; [|discriminate]. apply (select_text _ _ _ S).
Qed.

(** ** The hypotheses are met, and the outcomes are what they should be *)
Definition btc : bip38 :=
  match bip38_init (CoinClass coin_Bitcoin) (str "mainnet") with
  | Ok self => self
  | Raise _ => {| s_cryptocurrency := coin_Bitcoin; s_networks := []; s_network := []; s_alphabet := [] |}
  end.
Example C71_made : bip38_init (CoinClass coin_Bitcoin) (str "mainnet") = Ok btc /\
  usable_network (s_networks btc) VNone /\ usable_network (s_networks btc) (VStr (str "testnet")) /\ usable_network (s_networks btc) (VInt 0) /\
  usable_data (VStr (str "99241d58245c8838")) /\ usable_data (VBytes [x01]) /\ usable_data (VBool false) /\
  ~ blank (VInt 5) /\ ~ is_text (VInt 5) /\ has_class (VInt 5) (str "<class 'int'>") /\ shows (VBool true) (str "True").
Proof.
  assert (B : blank VNone /\ blank (VInt 0) /\ blank (VBool false)) by (repeat split; apply truth_blank; reflexivity). destruct B as (B1 & B2 & B3).
  split; [reflexivity|]. split; [left; exact B1|]. split; [right; eexists; split; [reflexivity|cbn; auto]|]. split; [left; exact B2|].
  split; [right; right; eexists; eexists; split; reflexivity|]. split; [right; left; eauto|]. split; [left; exact B3|].
  split; [intros H; apply truth_blank in H; discriminate|]. split; [intros (s & H); discriminate|]. split; [unfold has_class; eauto 10|unfold shows; auto].
Qed.
Example C71_outcomes :
  encrypt_any toy btc (VStr (str "5KN7MzqK5wt2TP1fQCYyHBtDrXdJuXbUzm4A9rKAteGu3Qi5CVR")) (VStr (str "x")) (VInt 5) =
    Raise (Lib CNetworkError "Wrong network type, (expected: 'mainnet', 'testnet', 'regtest' | got: '<class 'int'>')") /\
  decrypt_any toy btc (VBytes [x36]) (VStr (str "x")) VNone VNone = type_error /\
  decrypt_any toy btc (VStr (str "6PRVWUbkzzsbcVac2qwfssoUJAN1Xhrg6bNk8J7Nzm5H7kxEbn2Nh2ZoGg")) (VBytes [x78]) (VInt 0) VNone = type_error /\
  decrypt_any toy btc (VStr (str "6PRV")) (VBytes [x78]) VNone VNone = decrypt_any toy btc (VStr (str "6PRV")) (VStr (str "x")) VNone VNone /\
  create_any toy [] btc (VStr (str "x")) (VStr (str "wif")) (VInt 7) VNone = type_error /\
  intermediate_code_value toy (fun s => s) [] VNone (VBytes [x31]) (VBytes [x37; x30; x30; x30]) (VStr (str "75ed1cdeb254cb38")) =
    Raise (Lib CError "Invalid lot, (expected: 100000 <= lot <= 999999 | got: '1')").
Proof. repeat split; vm_compute; reflexivity. Qed.
