(** * C72: the other functions with arguments of any type *)
From Coq Require Import Lia Permutation.
From Verif Require Import Py Prims Const Exceptions ErrorFacts Spec PyFacts Utils Base58 Crypto Curve Secp256k1 Cryptocurrencies P2PKHAddress Wif Bip38
  SpecBip38 CodecFacts CodecFacts2 SpecReads Base58Facts ReadFacts Sessions Toy LotText AnyArgs AnyFuncs Utf8Facts PropUtils PropAnyArgs.

Definition is_bytes (v : value) : Prop := exists b, v = VBytes b.
(** An int, or a bool, which Python counts as the int 0 or 1. *)
Definition counts_as (v : value) (z : Z) : Prop := v = VInt z \/ v = VBool false /\ z = 0 \/ v = VBool true /\ z = 1.
Definition is_int (v : value) : Prop := exists z, counts_as v z.
(** The two byte orders. *)
Definition order (v : value) (e : endian) : Prop := v = VStr (str "big") /\ e = Big \/ v = VStr (str "little") /\ e = Little.
Definition optional_int (o : option Z) : value := match o with Some z => VInt z | None => VNone end.

Lemma as_int_spec v z : as_int v = Some z <-> counts_as v z.
Proof.
  unfold counts_as. split.
  - destruct v as [|[]|x| | |]; cbn; intros [= <-]; auto.
  - intros [->|[[-> ->]|[-> ->]]]; reflexivity.
Qed.
Lemma as_int_none v : ~ is_int v -> as_int v = None.
Proof. intros H. destruct (as_int v) as [z|] eqn:E; [|reflexivity]. destruct H. exists z. apply as_int_spec, E. Qed.
Lemma order_spec v e : byteorder v = Ok e <-> order v e.
Proof.
  unfold order. split.
  - destruct v as [| | | |s|]; try discriminate. cbn [byteorder].
    destruct (str_eqb s (str "little")) eqn:E1; [apply str_eqb_spec in E1; subst; intros [= <-]; auto|].
    destruct (str_eqb s (str "big")) eqn:E2; [apply str_eqb_spec in E2; subst; intros [= <-]; auto|]. discriminate.
  - intros [[-> ->]|[-> ->]]; reflexivity.
Qed.
Lemma bytes_dec v : {is_bytes v} + {~ is_bytes v}.
Proof. destruct v as [| | |b| |]; try (right; intros (? & ?); discriminate). left. exists b. reflexivity. Qed.

(** ** On the declared types these are the functions modelled before *)
Theorem C72_base58 : forall P b s a,
  encode_any (VBytes b) (VStr a) = encode b a /\ check_encode_any P (VBytes b) (VStr a) = check_encode P b a /\
  decode_any (VStr s) (VStr a) = decode s a /\ check_decode_any P (VStr s) (VStr a) = check_decode P s a /\
  string_to_int_any (VBytes b) = Ok (string_to_int b) /\ ensure_string_any (VStr s) = Ok s.
Proof. intros. repeat split. Qed.
Theorem C72_integers : forall b z n v e signed, order v e ->
  bytes_to_integer_any (VBytes b) v (VBool signed) = Ok (bytes_to_integer_full b e signed) /\
  integer_to_bytes_any (VInt z) (optional_int n) v (VBool signed) = integer_to_bytes_full z n e signed /\
  bytes_reverse_any (VBytes b) = Ok (bytes_reverse b).
Proof.
  intros b z n v e signed O. apply order_spec in O. unfold bytes_to_integer_any, integer_to_bytes_any. rewrite O. cbn [bind].
  repeat split. unfold integer_to_bytes_full. destruct n as [n|]; cbn [optional_int truth]; [|reflexivity].
  destruct (n =? 0); reflexivity.
Qed.
Lemma prefix_int v z : counts_as v z -> prefix_bytes v = integer_to_bytes z.
Proof. intros H. apply as_int_spec in H. unfold prefix_bytes, integer_to_bytes_any. cbn [truth]. rewrite H. reflexivity. Qed.
Lemma prefix_other v : ~ is_int v -> prefix_bytes v = type_error.
Proof. intros H. apply as_int_none in H. unfold prefix_bytes, integer_to_bytes_any. cbn [truth]. rewrite H. reflexivity. Qed.
Lemma arg_of a : as_arg (data a) = a.
Proof. destruct a; reflexivity. Qed.
Lemma wif_any P k w : encode_wif_any P (data k) (VInt w) = encode_wif P k w.
Proof. unfold encode_wif_any, encode_wif. rewrite arg_of, (prefix_int (VInt w) w) by (left; reflexivity). reflexivity. Qed.
Lemma decode_wif_int v s w : counts_as v w -> decode_wif_any (VStr s) v = decode_wif s w.
Proof. intros H. apply as_int_spec in H. unfold decode_wif_any. rewrite H. reflexivity. Qed.
Lemma equals_in s l : existsb (equals (VStr s)) l = str_in s l.
Proof. reflexivity. Qed.
Theorem C72_wif : forall P k w s t c n,
  encode_wif_any P (data k) (VInt w) = encode_wif P k w /\
  decode_wif_any (VStr s) (VInt w) = decode_wif s w /\
  private_key_to_wif_any P (data k) (VStr t) (CoinClass c) (VStr n) = private_key_to_wif P k t c n /\
  wif_to_private_key_any (VStr s) (CoinClass c) (VStr n) = wif_to_private_key s c n /\
  get_wif_type_any (VStr s) (CoinClass c) (VStr n) = get_wif_type s c n /\
  get_wif_checksum_any (VStr s) (CoinClass c) (VStr n) = get_wif_checksum s c n.
Proof.
  intros P k w s t c n.
  assert (D : forall z, decode_wif_any (VStr s) (VInt z) = decode_wif s z) by reflexivity.
  split; [apply wif_any|]. split; [apply D|]. split.
  - unfold private_key_to_wif_any, private_key_to_wif. rewrite equals_in. destruct (str_in t WIF_TYPES); [|reflexivity]. cbn [negb wif_prefix_any].
    apply bind_ext. intros z. rewrite wif_any. reflexivity.
  - repeat split.
Qed.
(** The keyword arguments that were given. *)
Definition given (name : string) (o : option value) : kwargs := match o with Some v => [(str name, v)] | None => [] end.
Theorem C72_address : forall P k prefix kt al s,
  P2PKH_encode_any P (match k with PKObj k => inl k | PKData d => inr (data d) end)
    (given "address_prefix" (option_map VInt prefix) ++ given "public_key_type" (option_map VStr kt) ++ given "alphabet" (option_map VStr al))
    = P2PKH_encode P k prefix kt al /\
  P2PKH_decode_any P (VStr s) (given "address_prefix" (option_map VInt prefix) ++ given "alphabet" (option_map VStr al))
    = P2PKH_decode P s prefix al.
Proof.
  intros P k prefix kt al s. unfold P2PKH_encode_any, P2PKH_encode, P2PKH_decode_any, P2PKH_decode.
  assert (V : forall z, prefix_bytes (VInt z) = integer_to_bytes z) by (intros z; apply prefix_int; left; reflexivity).
  split.
  - destruct prefix as [z|], kt as [t|], al as [a|], k as [k|d]; cbn [option_map given app kw_get dict_get];
      try rewrite arg_of; unfold kw_get; cbn; rewrite ?V; try reflexivity.
  - destruct prefix as [z|], al as [a|]; unfold kw_get; cbn; rewrite ?V; reflexivity.
Qed.

(** ** Text expected, something else given *)
Lemma check_decode_other P v a : ~ is_text v -> check_decode_any P v a = type_error.
Proof. intros T. destruct v; try reflexivity. destruct T. eexists. reflexivity. Qed.
Lemma decode_wif_other v w : ~ is_text v -> decode_wif_any v w = type_error.
Proof. intros T. destruct v; try reflexivity. destruct T. eexists. reflexivity. Qed.
(** The keyword [name] was given the value [v]. *)
Definition keyword (kw : kwargs) (name : string) (v : value) : Prop := dict_get (str name) kw = Some v.
(** address_prefix, if given, is an int that can be written as bytes *)
Definition good_prefix (kw : kwargs) : Prop := forall v, keyword kw "address_prefix" v -> exists z, counts_as v z /\ 0 <= z.
Lemma prefix_good kw : good_prefix kw -> exists p, prefix_bytes (kw_get "address_prefix" (VInt default_address_prefix) kw) = Ok p.
Proof.
  intros H. unfold kw_get. destruct (dict_get (str "address_prefix") kw) as [v|] eqn:D; cbn [default].
  - destruct (H v D) as (z & C & Z). rewrite (prefix_int _ _ C), (pre_eq _ Z). eexists. reflexivity.
  - eexists. reflexivity.
Qed.
Theorem C72_text_type : forall P v a, ~ is_text v ->
  decode_any v a = type_error /\ check_decode_any P v a = type_error /\ (forall w, decode_wif_any v w = type_error) /\
  (forall c n, In n (List.map fst (c_networks c)) ->
     wif_to_private_key_any v (CoinClass c) (VStr n) = type_error /\ get_wif_type_any v (CoinClass c) (VStr n) = type_error /\
     get_wif_checksum_any v (CoinClass c) (VStr n) = type_error) /\
  (forall kw, good_prefix kw -> P2PKH_decode_any P v kw = type_error).
Proof.
  intros P v a T. split; [destruct v; try reflexivity; destruct T; eexists; reflexivity|]. split; [apply check_decode_other, T|].
  split; [intros w; apply decode_wif_other, T|]. split.
  - intros c n IN. destruct (dict_get n (c_networks c)) as [[w x]|] eqn:D; [|apply dict_get_none in D; contradiction].
    unfold wif_to_private_key_any, get_wif_type_any, get_wif_checksum_any, wif_prefix_any. rewrite (wif_prefix_eq _ _ _ _ D). cbn [bind].
    rewrite !decode_wif_other by exact T. auto.
  - intros kw G. unfold P2PKH_decode_any. destruct (prefix_good kw G) as (p & ->). cbn [bind]. rewrite check_decode_other by exact T. reflexivity.
Qed.

(** ** Bytes expected, something else given *)
Theorem C72_bytes_type : forall P v a, ~ is_bytes v ->
  string_to_int_any v = type_error /\ encode_any v a = type_error /\ check_encode_any P v a = type_error /\
  (forall o e s, order o e -> bytes_to_integer_any v o s = type_error).
Proof.
  intros P v a B. assert (S : string_to_int_any v = type_error) by (destruct v; try reflexivity; destruct B; eexists; reflexivity).
  split; [exact S|]. split; [unfold encode_any; rewrite S; reflexivity|]. split; [destruct v; try reflexivity; destruct B; eexists; reflexivity|].
  intros o e s O. apply order_spec in O. unfold bytes_to_integer_any. rewrite O. destruct v; try reflexivity; destruct B; eexists; reflexivity.
Qed.
(** ensure_string takes text, and bytes that are the UTF-8 form of a text. *)
Theorem C72_ensure_string : forall v s,
  (ensure_string_any v = Ok s <-> v = VStr s \/ exists b, v = VBytes b /\ utf8_encode s = Ok b) /\
  ((forall t, ensure_string_any v <> Ok t) -> ensure_string_any v = Raise (Builtin ValueError)).
Proof.
  intros v s. split.
  - split.
    + destruct v as [| | |b|t|]; cbn [ensure_string_any]; try discriminate.
      * destruct (utf8_decode b) as [t|] eqn:D; [|discriminate]. intros [= ->]. right. exists b. split; [reflexivity|]. apply utf8_decode_iff, D.
      * intros [= ->]. auto.
    + intros [->|(b & -> & E)]; [reflexivity|]. cbn [ensure_string_any]. apply utf8_decode_iff in E. rewrite E. reflexivity.
  - destruct v as [| | |b|t|]; cbn [ensure_string_any]; try reflexivity.
    + destruct (utf8_decode b) as [t|]; [|reflexivity]. intros H. destruct (H t eq_refl).
    + intros H. destruct (H t eq_refl).
Qed.
(** bytes_reverse takes an int n for n zero bytes. *)
Theorem C72_reverse : forall v,
  (forall n, counts_as v n -> 0 <= n -> bytes_reverse_any v = Ok (List.repeat x00 (Z.to_nat n))) /\
  (forall n, counts_as v n -> n < 0 -> bytes_reverse_any v = Raise (Builtin ValueError)) /\
  (~ is_bytes v -> ~ is_int v -> bytes_reverse_any v = type_error).
Proof.
  intros v. assert (RV : forall n, rev (List.repeat x00 n) = List.repeat x00 n).
  { induction n as [|n IH]; [reflexivity|]. cbn [List.repeat rev]. rewrite IH. symmetry. apply repeat_cons. }
  assert (U : forall n, counts_as v n -> bytes_reverse_any v = if n <? 0 then Raise (Builtin ValueError) else Ok (rev (List.repeat x00 (Z.to_nat n)))).
  { intros n [->|[[-> ->]|[-> ->]]]; reflexivity. }
  split; [|split].
  - intros n C Z. rewrite (U n C). destruct (Z.ltb_spec n 0); [lia|]. rewrite RV. reflexivity.
  - intros n C Z. rewrite (U n C). destruct (Z.ltb_spec n 0); [reflexivity|lia].
  - intros B I. apply as_int_none in I. unfold bytes_reverse_any. destruct v; try (destruct B; eexists; reflexivity); rewrite I; reflexivity.
Qed.

(** ** Integers *)
Theorem C72_integer_type : forall d num o s,
  (~ is_int d -> blank num -> integer_to_bytes_any d num o s = type_error) /\
  (~ is_int d -> ~ blank num -> integer_to_bytes_any d num o s = Raise (Builtin AttributeError)) /\
  (is_int d -> ~ blank num -> ~ is_int num -> integer_to_bytes_any d num o s = type_error) /\
  (is_int d -> blank num \/ is_int num -> ~ is_text o -> integer_to_bytes_any d num o s = type_error) /\
  (is_int d -> blank num \/ is_int num -> is_text o -> (forall e, ~ order o e) -> integer_to_bytes_any d num o s = Raise (Builtin ValueError)) /\
  (~ is_text o -> bytes_to_integer_any d o s = type_error) /\
  (is_text o -> (forall e, ~ order o e) -> bytes_to_integer_any d o s = Raise (Builtin ValueError)).
Proof.
  intros d num o s.
  assert (OT : ~ is_text o -> byteorder o = type_error) by (intros T; destruct o; try reflexivity; destruct T; eexists; reflexivity).
  assert (OV : is_text o -> (forall e, ~ order o e) -> byteorder o = Raise (Builtin ValueError)).
  { intros (t & ->) N. destruct (byteorder (VStr t)) as [e|e] eqn:E.
    - destruct (N e). apply order_spec, E.
    - cbn [byteorder] in E. destruct (str_eqb t (str "little")); [discriminate|]. destruct (str_eqb t (str "big")); [discriminate|]. congruence. }
  assert (NUM : forall z, as_int d = Some z -> blank num \/ is_int num ->
    exists n, integer_to_bytes_any d num o s = bind (byteorder o) (fun e => to_bytes z n e (truth s))).
  { intros z D [B|(k & I)].
    - apply truth_blank in B. unfold integer_to_bytes_any. rewrite B, D. cbn [bind as_int]. rewrite ?D. eexists. reflexivity.
    - apply as_int_spec in I. unfold integer_to_bytes_any. rewrite D. destruct (truth num); cbn [bind as_int]; rewrite ?I; eexists; reflexivity. }
  repeat split.
  - intros D B. apply as_int_none in D. apply truth_blank in B. unfold integer_to_bytes_any. rewrite B, D. reflexivity.
  - intros D B. apply as_int_none in D. unfold integer_to_bytes_any. rewrite (truth_not_blank _ B), D. reflexivity.
  - intros (z & D) B I. apply as_int_spec in D. apply as_int_none in I. unfold integer_to_bytes_any. rewrite (truth_not_blank _ B), D. cbn [bind].
    rewrite I. reflexivity.
  - intros (z & D) B T. apply as_int_spec in D. destruct (NUM z D B) as (n & ->). rewrite (OT T). reflexivity.
  - intros (z & D) B T N. apply as_int_spec in D. destruct (NUM z D B) as (n & ->). rewrite (OV T N). reflexivity.
  - intros T. unfold bytes_to_integer_any. rewrite (OT T). reflexivity.
  - intros T N. unfold bytes_to_integer_any. rewrite (OV T N). reflexivity.
Qed.
(** True and False are the ints 1 and 0, and any value serves as a flag. *)
Theorem C72_bool : forall d z num n o s f, counts_as d z -> counts_as num n -> truth s = f ->
  integer_to_bytes_any d num o s = integer_to_bytes_any (VInt z) (VInt n) o (VBool f) /\
  integer_to_bytes_any d VNone o s = integer_to_bytes_any (VInt z) VNone o (VBool f) /\
  (forall b, bytes_to_integer_any b o s = bytes_to_integer_any b o (VBool f)).
Proof.
  intros d z num n o s f D N <-. apply as_int_spec in D. apply as_int_spec in N. unfold integer_to_bytes_any, bytes_to_integer_any. rewrite D.
  cbn [as_int bind truth]. repeat split; try reflexivity.
  assert (T : truth num = negb (n =? 0)) by (destruct num as [|[]| | | |]; try discriminate; injection N as <-; reflexivity).
  rewrite T. destruct (n =? 0); cbn [negb bind as_int]; rewrite ?N; reflexivity.
Qed.

(** ** Prefixes *)
Theorem C72_prefix_type : forall P v, ~ is_int v ->
  (forall k b, get_bytes k true = Ok b -> List.length b = 32%nat -> encode_wif_any P (data k) v = type_error) /\
  (forall s, is_ascii s -> decode_wif_any (VStr s) v = type_error) /\
  (forall kw k, keyword kw "address_prefix" v -> P2PKH_encode_any P k kw = type_error) /\
  (forall kw a, keyword kw "address_prefix" v -> P2PKH_decode_any P a kw = type_error).
Proof.
  intros P v I. repeat split.
  - intros k b G L. unfold encode_wif_any. rewrite arg_of, G. cbn [bind]. rewrite L. cbn [Nat.eqb negb]. rewrite (prefix_other _ I). reflexivity.
  - intros s A. unfold decode_wif_any. rewrite (as_int_none _ I). destruct (decode_ascii58 s A) as (b & ->). reflexivity.
  - intros kw k H. unfold P2PKH_encode_any, kw_get. rewrite H. cbn [default]. rewrite (prefix_other _ I). reflexivity.
  - intros kw k H. unfold P2PKH_decode_any, kw_get. rewrite H. cbn [default]. rewrite (prefix_other _ I). reflexivity.
Qed.

(** ** Networks and coins: anything but the name of a network is a KeyError, anything
    but a coin an AttributeError, before the key or the WIF is looked at. *)
Theorem C72_network_key : forall P k wif t c n, t = str "wif" \/ t = str "wif-compressed" -> (forall s, n = VStr s -> ~ In s (List.map fst (c_networks c))) ->
  let e := Raise (Builtin KeyError) in
  private_key_to_wif_any P k (VStr t) (CoinClass c) n = e /\ wif_to_private_key_any wif (CoinClass c) n = e /\
  get_wif_type_any wif (CoinClass c) n = e /\ get_wif_checksum_any wif (CoinClass c) n = e.
Proof.
  intros P k wif t c n T N e.
  assert (W : wif_prefix_any (CoinClass c) n = Raise (Builtin KeyError)).
  { destruct n as [| | | |s|]; try reflexivity. cbn [wif_prefix_any]. unfold wif_prefix_of. specialize (N s eq_refl). apply dict_get_none in N. rewrite N. reflexivity. }
  unfold private_key_to_wif_any, wif_to_private_key_any, get_wif_type_any, get_wif_checksum_any. rewrite W.
  repeat split. destruct T as [-> | ->]; reflexivity.
Qed.
Theorem C72_coin_type : forall P k wif t x n, t = str "wif" \/ t = str "wif-compressed" -> (forall c, x <> CoinClass c) ->
  let e := Raise (Builtin AttributeError) in
  private_key_to_wif_any P k (VStr t) x n = e /\ wif_to_private_key_any wif x n = e /\
  get_wif_type_any wif x n = e /\ get_wif_checksum_any wif x n = e.
Proof.
  intros P k wif t x n T N e.
  assert (W : wif_prefix_any x n = Raise (Builtin AttributeError)) by (destruct x as [c| | |]; try reflexivity; destruct (N c eq_refl)).
  unfold private_key_to_wif_any, wif_to_private_key_any, get_wif_type_any, get_wif_checksum_any. rewrite W.
  repeat split. destruct T as [-> | ->]; reflexivity.
Qed.
Theorem C72_wif_type : forall P k t x n s, t <> VStr (str "wif") -> t <> VStr (str "wif-compressed") -> shows t s ->
  private_key_to_wif_any P k t x n = Raise (Lib CWIFError (error_text "Wrong WIF type" (str "'wif', 'wif-compressed'") s)).
Proof.
  intros P k t x n s N1 N2 S. apply shows_shown in S. subst s. unfold private_key_to_wif_any.
  replace (existsb (equals t) WIF_TYPES) with false.
  - cbn [negb]. rewrite lib_error_list by discriminate. reflexivity.
  - symmetry. destruct t as [| | | |t|]; try reflexivity. rewrite equals_in. unfold str_in, WIF_TYPES. cbn [existsb].
    destruct (str_eqb t (str "wif")) eqn:E1; [apply str_eqb_spec in E1; subst; contradiction|].
    destruct (str_eqb t (str "wif-compressed")) eqn:E2; [apply str_eqb_spec in E2; subst; contradiction|]. reflexivity.
Qed.

(** ** Keyword arguments of P2PKHAddress *)
(** Only three names matter: any two dicts that give these the same values. *)
Theorem C72_keywords : forall P k a kw kw',
  (forall name v, In name ["address_prefix"; "public_key_type"; "alphabet"]%string -> (keyword kw name v <-> keyword kw' name v)) ->
  P2PKH_encode_any P k kw = P2PKH_encode_any P k kw' /\ P2PKH_decode_any P a kw = P2PKH_decode_any P a kw'.
Proof.
  intros P k a kw kw' H.
  assert (G : forall name d, In name ["address_prefix"; "public_key_type"; "alphabet"]%string -> kw_get name d kw = kw_get name d kw').
  { intros name d IN. unfold kw_get. unfold keyword in H. destruct (dict_get (str name) kw) as [v|] eqn:E.
    - apply (H name v IN) in E. rewrite E. reflexivity.
    - destruct (dict_get (str name) kw') as [v|] eqn:E'; [|reflexivity]. apply (H name v IN) in E'. congruence. }
  unfold P2PKH_encode_any, P2PKH_decode_any. rewrite !G by (cbn; auto). split; reflexivity.
Qed.
Lemma str_inj : forall a b, str a = str b -> a = b.
Proof.
  unfold str. intros a b H. rewrite <- (string_of_list_ascii_of_string a), <- (string_of_list_ascii_of_string b). f_equal.
  revert H. generalize (list_ascii_of_string a) (list_ascii_of_string b). induction l as [|x l IH]; intros [|y l'] H; try discriminate; [reflexivity|].
  cbn [List.map] in H. injection H as H1 H2. f_equal; [|apply IH, H2]. rewrite <- (ascii_N_embedding x), <- (ascii_N_embedding y), H1. reflexivity.
Qed.
(** So a keyword with any other name is ignored, *)
Theorem C72_unknown_keyword : forall P k a kw name v, ~ In name ["address_prefix"; "public_key_type"; "alphabet"]%string ->
  P2PKH_encode_any P k ((str name, v) :: kw) = P2PKH_encode_any P k kw /\ P2PKH_decode_any P a ((str name, v) :: kw) = P2PKH_decode_any P a kw.
Proof.
  intros P k a kw name v N. apply C72_keywords. intros m w IN. unfold keyword. cbn [dict_get].
  destruct (str_eqb (str m) (str name)) eqn:E; [|reflexivity]. apply str_eqb_spec in E. destruct N.
  replace name with m; [exact IN|]. apply str_inj, E.
Qed.
(** their order is irrelevant, *)
Theorem C72_keyword_order : forall P k a kw kw', NoDup (List.map fst kw) -> Permutation kw kw' ->
  P2PKH_encode_any P k kw = P2PKH_encode_any P k kw' /\ P2PKH_decode_any P a kw = P2PKH_decode_any P a kw'.
Proof.
  intros P k a kw kw' ND PM. apply C72_keywords. intros name v _. unfold keyword.
  assert (D : forall (d : kwargs) n v, NoDup (List.map fst d) -> (dict_get n d = Some v <-> In (n, v) d)).
  { clear. intros d n v ND. split; [apply dict_get_in|]. induction d as [|[m w] d IH]; [contradiction|]. cbn [List.map fst] in ND. apply NoDup_cons_iff in ND.
    destruct ND as [NI ND]. intros [[= -> ->]|IN]; cbn [dict_get].
    - replace (str_eqb n n) with true; [reflexivity|]. symmetry. apply str_eqb_spec. reflexivity.
    - destruct (str_eqb n m) eqn:E; [|exact (IH ND IN)]. apply str_eqb_spec in E. subst. destruct NI. exact (in_map fst _ _ IN). }
  rewrite !D.
  - split; apply Permutation_in; [exact PM|apply Permutation_sym, PM].
  - apply (Permutation_NoDup (Permutation_map fst PM)), ND.
  - exact ND.
Qed.
(** and any public_key_type but the text "compressed" means uncompressed. *)
Theorem C72_key_type : forall P k kw v, v <> VStr (str "compressed") ->
  P2PKH_encode_any P k ((str "public_key_type", v) :: kw) = P2PKH_encode_any P k ((str "public_key_type", VStr (str "uncompressed")) :: kw).
Proof.
  intros P k kw v N. unfold P2PKH_encode_any, kw_get.
  change (dict_get (str "address_prefix") ((str "public_key_type", v) :: kw)) with (dict_get (str "address_prefix") kw).
  change (dict_get (str "alphabet") ((str "public_key_type", v) :: kw)) with (dict_get (str "alphabet") kw).
  change (dict_get (str "address_prefix") ((str "public_key_type", VStr (str "uncompressed")) :: kw)) with (dict_get (str "address_prefix") kw).
  change (dict_get (str "alphabet") ((str "public_key_type", VStr (str "uncompressed")) :: kw)) with (dict_get (str "alphabet") kw).
  change (dict_get (str "public_key_type") ((str "public_key_type", v) :: kw)) with (Some v).
  change (dict_get (str "public_key_type") ((str "public_key_type", VStr (str "uncompressed")) :: kw)) with (Some (VStr (str "uncompressed"))).
  cbn [default]. replace (equals v (str "compressed")) with false; [reflexivity|].
  symmetry. destruct v as [| | | |t|]; try reflexivity. cbn [equals]. destruct (str_eqb t (str "compressed")) eqn:E; [|reflexivity].
  apply str_eqb_spec in E. subst. contradiction.
Qed.

(** ** Alphabets *)
Theorem C72_alphabet_type : forall P a, ~ is_text a ->
  (forall b, a <> VBytes [] -> encode_any (VBytes b) a = type_error /\ check_encode_any P (VBytes b) a = type_error) /\
  (forall b, a = VBytes [] -> encode_any (VBytes b) a = Raise (Builtin ZeroDivisionError) /\ check_encode_any P (VBytes b) a = Raise (Builtin ZeroDivisionError)) /\
  decode_any (VStr []) a = Ok [] /\
  (forall s, s <> [] -> is_ascii s -> is_bytes a -> decode_any (VStr s) a = Raise (Builtin AttributeError) /\ check_decode_any P (VStr s) a = Raise (Builtin AttributeError)) /\
  (forall s, s <> [] -> is_ascii s -> ~ is_bytes a -> decode_any (VStr s) a = type_error /\ check_decode_any P (VStr s) a = type_error).
Proof.
  intros P a T.
  assert (E1 : forall b, a <> VBytes [] -> encode_any (VBytes b) a = type_error).
  { intros b N. destruct a as [| | |[|]|s|]; try reflexivity; [contradiction|destruct T; eexists; reflexivity]. }
  assert (D1 : forall s, s <> [] -> is_ascii s -> decode_any (VStr s) a = if bytes_dec a then Raise (Builtin AttributeError) else type_error).
  { intros s NE A. unfold decode_any.
    destruct a as [| | |b|t|]; try (destruct T; eexists; reflexivity); rewrite (ascii_encode_ok _ A); cbn [bind];
      destruct s as [|c s]; try contradiction; cbn [List.map];
      match goal with |- context[bytes_dec ?x] => destruct (bytes_dec x) as [B|B] end; try reflexivity; solve [destruct B; discriminate|destruct B; eexists; reflexivity]. }
  split; [intros b N; split; [apply E1, N|unfold check_encode_any; apply E1, N]|].
  split; [intros b ->; split; reflexivity|].
  split; [destruct a; try reflexivity; destruct T; eexists; reflexivity|].
  split; intros s NE A B; unfold check_decode_any; rewrite (D1 s NE A); destruct (bytes_dec a); try contradiction; split; reflexivity.
Qed.

(** ** A result means arguments of the declared types *)
Theorem C72_success : forall P,
  (forall d a s, encode_any d a = Ok s -> is_bytes d /\ is_text a) /\
  (forall d a s, check_encode_any P d a = Ok s -> is_bytes d /\ is_text a) /\
  (forall d a b, decode_any d a = Ok b -> is_text d /\ (is_text a \/ d = VStr [])) /\
  (forall d a b, check_decode_any P d a = Ok b -> is_text d) /\
  (forall d o s z, bytes_to_integer_any d o s = Ok z -> is_bytes d /\ exists e, order o e) /\
  (forall d n o s b, integer_to_bytes_any d n o s = Ok b -> is_int d /\ (blank n \/ is_int n) /\ exists e, order o e) /\
  (forall k w r, encode_wif_any P k w = Ok r -> (is_text k \/ is_bytes k) /\ is_int w) /\
  (forall s w r, decode_wif_any s w = Ok r -> is_text s /\ is_int w) /\
  (forall k t x n r, private_key_to_wif_any P k t x n = Ok r -> (is_text k \/ is_bytes k) /\ is_text t /\ is_text n /\ exists c, x = CoinClass c) /\
  (forall s kw r, P2PKH_decode_any P s kw = Ok r -> is_text s).
Proof.
  intros P.
  assert (E1 : forall d a s, encode_any d a = Ok s -> is_bytes d /\ is_text a).
  { intros d a s. destruct d; try discriminate. destruct a as [| | |[|]| |]; try discriminate. intros _. split; eexists; reflexivity. }
  assert (D1 : forall d a b, decode_any d a = Ok b -> is_text d /\ (is_text a \/ d = VStr [])).
  { intros d a b. destruct d as [| | | |s|]; try discriminate. intros H. split; [eexists; reflexivity|].
    destruct (text_dec a) as [T|T]; [left; exact T|right]. destruct s as [|c s]; [reflexivity|].
    unfold decode_any in H. destruct a as [| | |x|t|]; try (destruct T; eexists; reflexivity); unfold ascii_encode in H; destruct (forallb _ _); discriminate. }
  assert (D2 : forall d a b, check_decode_any P d a = Ok b -> is_text d).
  { intros d a b H. unfold check_decode_any in H. destruct (decode_any d a) eqn:E; [|discriminate]. apply (D1 _ _ _ E). }
  assert (IB : forall v b, prefix_bytes v = Ok b -> is_int v).
  { intros v b H. destruct (as_int v) as [z|] eqn:E; [exists z; apply as_int_spec, E|].
    unfold prefix_bytes, integer_to_bytes_any in H. cbn [truth] in H. rewrite E in H. discriminate. }
  assert (W1 : forall k w r, encode_wif_any P k w = Ok r -> (is_text k \/ is_bytes k) /\ is_int w).
  { intros k w r H. unfold encode_wif_any in H. destruct (get_bytes (as_arg k) true) as [b|] eqn:G; [|discriminate]. cbn [bind] in H.
    destruct (Nat.eqb (List.length b) 32) eqn:L; cbn [negb] in H.
    - split.
      + destruct k as [|x|x|x|x|t x y]; try (right; eexists; reflexivity); try (left; eexists; reflexivity).
        * injection G as <-. discriminate.
        * destruct x; [discriminate|]. injection G as <-. discriminate.
        * unfold as_arg, get_bytes in G. cbn [truthy] in G. destruct (truth (VInt x)); [discriminate|]. injection G as <-. discriminate.
        * destruct t; [discriminate|]. injection G as <-. discriminate.
      + destruct (prefix_bytes w) as [p|] eqn:E; [|discriminate]. apply (IB _ _ E).
    - destruct (py_len (as_arg k)); discriminate. }
  split; [exact E1|]. split.
  { intros d a s H. destruct d as [| | |b| |]; try discriminate. unfold check_encode_any in H. apply E1 in H. destruct H as [_ H]. split; [eexists; reflexivity|exact H]. }
  split; [exact D1|]. split; [exact D2|]. split.
  { intros d o s z H. unfold bytes_to_integer_any in H. destruct (byteorder o) as [e|] eqn:E; [|discriminate]. cbn [bind] in H.
    destruct d as [| | |b| |]; try discriminate. split; [eexists; reflexivity|]. exists e. apply order_spec, E. }
  split.
  { intros d n o s b H. unfold integer_to_bytes_any in H. destruct (as_int d) as [z|] eqn:D.
    - split; [exists z; apply as_int_spec, D|]. destruct (truth n) eqn:B.
      + cbn [bind] in H. destruct (as_int n) as [k|] eqn:N; [|discriminate]. destruct (byteorder o) as [e|] eqn:E; [|discriminate].
        split; [right; exists k; apply as_int_spec, N|]. exists e. apply order_spec, E.
      + cbn [bind as_int] in H. destruct (byteorder o) as [e|] eqn:E; [|discriminate]. split; [left; apply truth_blank, B|]. exists e. apply order_spec, E.
    - destruct (truth n); discriminate. }
  split; [exact W1|]. split.
  { intros s w r H. destruct s as [| | | |s|]; try discriminate. split; [eexists; reflexivity|]. cbn [decode_wif_any] in H.
    destruct (as_int w) as [z|] eqn:E; [exists z; apply as_int_spec, E|]. destruct (decode s base58_alphabet); discriminate. }
  split.
  { intros k t x n r H. unfold private_key_to_wif_any in H. destruct (existsb (equals t) WIF_TYPES) eqn:T; [|discriminate]. cbn [negb] in H.
    destruct x as [c| | |]; try discriminate. destruct n as [| | | |n|]; try discriminate. cbn [wif_prefix_any] in H.
    destruct (wif_prefix_of c n) as [w|]; [|discriminate]. cbn [bind] in H. destruct (encode_wif_any P k (VInt w)) as [[u v]|] eqn:W; [|discriminate].
    split; [apply (W1 _ _ _ W)|]. split; [|split; [eexists; reflexivity|exists c; reflexivity]].
    destruct t; try discriminate. eexists. reflexivity. }
  intros s kw r H. unfold P2PKH_decode_any in H. destruct (prefix_bytes _); [|discriminate]. cbn [bind] in H.
  destruct (check_decode_any P s _) as [d|] eqn:D; [|discriminate]. apply (D2 _ _ _ D).
Qed.

(** The functions that take a coin and a network, and the two of P2PKHAddress *)
Theorem C72_success_coin : forall s x n,
  let declared := is_text s /\ is_text n /\ exists c, x = CoinClass c in
  (forall r, wif_to_private_key_any s x n = Ok r -> declared) /\
  (forall r, get_wif_type_any s x n = Ok r -> declared) /\
  (forall r, get_wif_checksum_any s x n = Ok r -> declared).
Proof.
  intros s x n declared. subst declared.
  assert (F : forall A (f : bytes * pystr * bytes -> res A) r, (let* wp := wif_prefix_any x n in let* d := decode_wif_any s (VInt wp) in f d) = Ok r ->
    is_text s /\ is_text n /\ exists c, x = CoinClass c).
  { intros A f r H. destruct x as [c| | |]; try discriminate. destruct n as [| | | |n|]; try discriminate. cbn [wif_prefix_any] in H.
    destruct (wif_prefix_of c n) as [w|]; [|discriminate]. cbn [bind] in H. destruct s as [| | | |s|]; try discriminate.
    repeat split; eexists; reflexivity. }
  split; [|split]; intros r H; eapply F; exact H.
Qed.
Theorem C72_success_address : forall P kw r, prims_ok P ->
  (exists k, P2PKH_encode_any P k kw = Ok r) \/ (exists a, P2PKH_decode_any P a kw = Ok r) ->
  (forall v, keyword kw "address_prefix" v -> is_int v) /\ (forall v, keyword kw "alphabet" v -> is_text v) /\
  (forall v, P2PKH_encode_any P (inr v) kw = Ok r -> is_text v \/ is_bytes v).
Proof.
  intros P kw r HP H.
  assert (IB : forall v b, prefix_bytes v = Ok b -> is_int v).
  { intros v b E. destruct (as_int v) as [z|] eqn:A; [exists z; apply as_int_spec, A|].
    unfold prefix_bytes, integer_to_bytes_any in E. cbn [truth] in E. rewrite A in E. discriminate. }
  split; [|split].
  - intros v K. unfold keyword in K.
    assert (E : exists b, prefix_bytes v = Ok b).
    { destruct H as [(k & H)|(a & H)]; [unfold P2PKH_encode_any in H|unfold P2PKH_decode_any in H]; unfold kw_get at 1 in H; rewrite K in H; cbn [default] in H;
        (destruct (prefix_bytes v) as [b|]; [exists b; reflexivity|discriminate]). }
    destruct E as [b E]. apply (IB _ _ E).
  - intros v K. destruct H as [(k & H)|(a & H)].
    + unfold P2PKH_encode_any in H. destruct (prefix_bytes _) as [p|]; [|discriminate]. cbn [bind] in H.
      match type of H with bind ?y _ = _ => destruct y as [key|]; [|discriminate] end. cbn [bind] in H.
      match type of H with bind ?y _ = _ => destruct y as [raw|]; [|discriminate] end. cbn [bind] in H.
      match type of H with bind ?y _ = _ => destruct y as [h|]; [|discriminate] end. cbn [bind] in H.
      unfold kw_get in H. rewrite K in H. cbn [default check_encode_any] in H.
      destruct v as [| | |[|]|t|]; try discriminate. eexists. reflexivity.
    + unfold P2PKH_decode_any in H. destruct (prefix_bytes _) as [p|]; [|discriminate]. cbn [bind] in H.
      unfold kw_get in H. rewrite K in H. cbn [default] in H.
      destruct (check_decode_any P a v) as [d|] eqn:D; [|discriminate]. unfold check_decode_any in D.
      destruct (text_dec v) as [T|T]; [exact T|exfalso].
      assert (S0 : decode_any a v = Ok [] \/ exists e, decode_any a v = Raise e).
      { destruct a as [| | | |s|]; try (right; eexists; reflexivity). unfold decode_any.
        destruct (ascii_encode s) as [[|c l]|e]; destruct v; try (destruct T; eexists; reflexivity); cbn [bind]; eauto. }
      destruct S0 as [E|(e & E)]; rewrite E in D; cbn [bind] in D; [|discriminate].
      pose proof (checksum4_length P [] HP) as L. unfold checksum4, sha256d in L. revert D.
      change (from_neg 4 []) with (@nil byte). change (upto_neg 4 []) with (@nil byte). unfold upto.
      destruct (firstn 4 (h_sha256 P (h_sha256 P []))) eqn:U; [discriminate L|discriminate].
  - intros v E. unfold P2PKH_encode_any in E. destruct (prefix_bytes _) as [p|]; [|discriminate]. cbn [bind] in E.
    destruct v as [|b|z|b|t|u y z]; try (right; eexists; reflexivity); try (left; eexists; reflexivity); exfalso; revert E.
    + discriminate.
    + destruct b; discriminate.
    + unfold as_arg, get_bytes. cbn [truthy]. destruct (truth (VInt z)); discriminate.
    + destruct u; discriminate.
Qed.

(** ** The hypotheses are met, and the outcomes are what they should be *)
Example C72_met :
  ~ is_text (VBytes [x36]) /\ ~ is_bytes (VStr (str "6P")) /\ ~ is_int (VStr (str "1")) /\ counts_as (VBool true) 1 /\
  order (VStr (str "little")) Little /\ (forall e, ~ order (VStr (str "middle")) e) /\
  keyword [(str "public_key_type", VNone); (str "address_prefix", VInt 48)] "address_prefix" (VInt 48) /\
  good_prefix [(str "public_key_type", VNone); (str "address_prefix", VInt 48)] /\
  NoDup (List.map fst [(str "public_key_type", VNone); (str "address_prefix", VInt 48)]) /\
  ~ In "adress_prefix"%string ["address_prefix"; "public_key_type"; "alphabet"]%string /\
  utf8_encode [233; 8364; 120171]%N = Ok [xc3; xa9; xe2; x82; xac; xf0; x9d; x95; xab].
Proof.
  split; [intros (s & H); discriminate|]. split; [intros (s & H); discriminate|].
  split; [intros (z & [H|[[H _]|[H _]]]); discriminate|]. split; [right; right; auto|]. split; [right; auto|].
  split; [intros e [[H _]|[H _]]; discriminate|]. split; [reflexivity|].
  split; [intros v H; cbn in H; injection H as <-; exists 48; split; [left; reflexivity|lia]|].
  split; [repeat constructor; cbn; intuition discriminate|]. split; [cbn; intuition discriminate|]. reflexivity.
Qed.
Example C72_outcomes :
  ensure_string_any (VBytes [xc3; xa9; xe2; x82; xac; xf0; x9d; x95; xab]) = Ok [233; 8364; 120171]%N /\
  ensure_string_any (VBytes [xc0; x80]) = Raise (Builtin ValueError) /\ ensure_string_any (VBytes [xed; xa0; x80]) = Raise (Builtin ValueError) /\
  ensure_string_any VNone = Raise (Builtin ValueError) /\
  bytes_reverse_any (VInt 3) = Ok [x00; x00; x00] /\
  integer_to_bytes_any (VBool true) VNone (VStr (str "big")) VNone = Ok [x01] /\
  integer_to_bytes_any (VStr (str "1")) (VInt 2) (VStr (str "big")) VNone = Raise (Builtin AttributeError) /\
  integer_to_bytes_any (VInt 258) (VInt 4) (VStr (str "little")) (VStr (str "yes")) = Ok [x02; x01; x00; x00] /\
  decode_any (VStr []) VNone = Ok [] /\ decode_any (VStr (str "2")) (VBytes [x31; x32]) = Raise (Builtin AttributeError) /\
  private_key_to_wif_any toy (VBytes []) VNone (CoinClass coin_Bitcoin) VNone =
    Raise (Lib CWIFError "Wrong WIF type, (expected: 'wif', 'wif-compressed' | got: 'None')") /\
  wif_to_private_key_any (VInt 5) (CoinClass coin_Bitcoin) VNone = Raise (Builtin KeyError) /\
  encode_wif_any toy VNone (VInt 128) = type_error /\ encode_wif_any toy (VStr (str "00")) VNone =
    Raise (Lib CSecp256k1Error "Invalid private key length, (expected: 64 | got: '2')").
Proof. repeat split; vm_compute; reflexivity. Qed.

(** C06: with unhexlify=False, get_bytes gives the bytes that read back as this text. *)
Theorem C06_text_bytes : forall s,
  (forall l, get_bytes (PStr s) false = Ok l <-> utf8_decode l = Some s) /\
  ((forall l, utf8_decode l <> Some s) -> get_bytes (PStr s) false = Raise (Builtin UnicodeEncodeError)).
Proof.
  intros s. assert (E : get_bytes (PStr s) false = utf8_encode s) by (destruct s; reflexivity). rewrite E. split.
  - intros l. rewrite utf8_decode_iff. tauto.
  - intros H. unfold utf8_encode. destruct (utf8_opt s) as [l|] eqn:U; [|reflexivity].
    destruct (H l). apply utf8_decode_iff. unfold utf8_encode. rewrite U. reflexivity.
Qed.
(** bytes_to_string of a text that is neither hex nor has UTF-8 bytes (it contains a lone surrogate) *)
Theorem C06_not_encodable : forall s, (forall b, ~ hex_string s b) -> (forall l, utf8_decode l <> Some s) ->
  bytes_to_string (PStr s) = Raise (Builtin UnicodeEncodeError).
Proof.
  intros s H U. destruct s as [|c s]; [destruct (H [] hex_end)|]. unfold bytes_to_string. cbn [truthy negb].
  destruct (fromhex (c :: s)) as [b|] eqn:E; [apply fromhex_iff in E; destruct (H b E)|].
  destruct (utf8_encode (c :: s)) as [l|x] eqn:D; [destruct (U l); apply utf8_decode_iff, D|]. unfold utf8_encode in D. destruct (utf8_opt (c :: s)); [discriminate|].
  injection D as <-. reflexivity.
Qed.
Example C06_example_text : get_bytes (PStr [233; 8364]%N) false = Ok [xc3; xa9; xe2; x82; xac] /\
  utf8_decode [xc3; xa9; xe2; x82; xac] = Some [233; 8364]%N /\ get_bytes (PStr [55296]%N) false = Raise (Builtin UnicodeEncodeError) /\
  get_bytes (PStr (str "0a")) false = Ok [x30; x61].
Proof. vm_compute. auto. Qed.
