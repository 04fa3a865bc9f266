(** * C103: bytearrays as arguments *)
From Coq Require Import Lia ZifyBool ZifyNat ZifyN.
From Verif Require Import Exceptions ErrorFacts Py Prims Const Spec PyFacts Utils UtilsFacts Base58 Base58Facts Crypto
  Curve SpecCurve Secp256k1 P2PKHAddress Cryptocurrencies Wif Bip38 SpecBip38 SpecRecords SpecReads SpecSession SpecOutcome
  CodecFacts CodecFacts2 ReadFacts Bip38Facts Bip38Facts2 Sessions Toy PropBase58 PropUtils PropCodec PropSession PropEC PropIntermediate
  Buffers.

(** ** What is claimed *)
(** The caller's objects: [env i a] is what the object [a] holds at the i-th moment of the
    call.  What a call that starts at moment 0 gives, and what it writes to them *)
Definition result {A} (env : nat -> nat -> bytes) (p : prog A) : res A := snd (run env 0 p []).
Definition writes {A} (env : nat -> nat -> bytes) (p : prog A) : list (nat * bytes) := fst (run env 0 p []).
(** The object [a] holds [b] as long as the call runs *)
Definition holds (env : nat -> nat -> bytes) (a : nat) (b : bytes) : Prop := forall i, env i a = b.
(** The caller's bytearray number [a] as an argument *)
Definition buf (a : nat) : data := Array (Theirs a).
Definition barg (a : nat) : arg := Buffer (Theirs a).
(** The calls that are modelled, with an argument of the caller *)
Definition callers (d : data) : Prop := match d with Array (Ours _) => False | _ => True end.
Definition callers_arg (d : arg) : Prop := match d with Buffer (Ours _) => False | _ => True end.
Inductive call (P : prims) : forall A, prog A -> Prop :=
| call_encode d alphabet : callers d -> call P _ (b_encode d alphabet)
| call_check_encode d alphabet : callers d -> call P _ (b_check_encode P d alphabet)
| call_decode s alphabet : call P _ (b_decode s alphabet)
| call_check_decode s alphabet : call P _ (b_check_decode P s alphabet)
| call_get_bytes d u : callers_arg d -> call P _ (b_get_bytes d u)
| call_bytes_reverse d : callers d -> call P _ (b_bytes_reverse d)
| call_bytes_to_string d : callers_arg d -> call P _ (b_bytes_to_string d)
| call_bytes_to_integer d e s : callers d -> call P _ (b_bytes_to_integer d e s)
| call_ripemd160 d : callers_arg d -> call P _ (b_ripemd160 P d)
| call_sha256 d : callers_arg d -> call P _ (b_sha256 P d)
| call_double_sha256 d : callers_arg d -> call P _ (b_double_sha256 P d)
| call_get_checksum d : callers_arg d -> call P _ (b_get_checksum P d)
| call_hash160 d : callers_arg d -> call P _ (b_hash160 P d)
| call_encode_wif d w : callers_arg d -> call P _ (b_encode_wif P d w)
| call_private_key_to_wif d t c n : callers_arg d -> call P _ (b_private_key_to_wif P d t c n)
| call_PrivateKey d : callers d -> call P _ (b_PrivateKey_from_bytes d)
| call_PublicKey d : callers d -> call P _ (b_PublicKey_from_bytes d)
| call_P2PKH_encode d ap t al : callers_arg d -> call P _ (b_P2PKH_encode P d ap t al)
| call_intermediate_code u pw lot sq d : callers_arg d -> call P _ (b_intermediate_code P u pw lot sq d)
| call_create u self s t d n : callers_arg d -> call P _ (b_create_new_encrypted_wif P u self s t d n).

(** ** Facts *)
(** A program that writes to its own objects only *)
Fixpoint quiet {A} (p : prog A) : Prop :=
  match p with
  | Done _ => True
  | New _ k => forall j, quiet (k (Ours j))
  | Get _ k => forall b, quiet (k b)
  | Put (Theirs _) _ _ => False
  | Put (Ours _) _ k => quiet k
  end.
Lemma quiet_run {A} (p : prog A) : quiet p -> forall env i priv, fst (run env i p priv) = [].
Proof.
  induction p as [r|b k IH|[a|j] k IH|[a|j] b k IH]; intros Q env i priv; cbn [run quiet] in *; try reflexivity; try contradiction.
  - apply IH, Q.
  - apply IH, Q.
  - apply IH, Q.
  - apply IH, Q.
Qed.
Lemma quiet_andthen {A B} (p : prog A) (f : A -> prog B) : quiet p -> (forall a, quiet (f a)) -> quiet (andthen p f).
Proof.
  intros Q F. induction p as [[a|e]|b k IH|[a|j] k IH|[a|j] b k IH]; cbn [andthen quiet] in *; auto.
Qed.
Lemma quiet_read d : quiet (read d).
Proof. destruct d as [b|[a|j]]; cbn; auto. Qed.
Lemma quiet_plus d b : quiet (plus d b).
Proof. destruct d as [c|[a|j]]; cbn; auto. Qed.
Lemma quiet_truthy a : quiet (b_truthy a).
Proof. destruct a as [p|[a|j]]; cbn; auto. Qed.
Lemma quiet_len a : quiet (b_len a).
Proof. destruct a as [p|[a|j]]; cbn; auto. Qed.
Lemma quiet_loop f : forall v j, quiet (b_bytes_loop f v (Ours j)).
Proof. induction f as [|f IH]; intros v j; cbn [b_bytes_loop]; (destruct (0 <? v); [|exact I]); [exact I|]. cbn [quiet]. intros b. apply IH. Qed.
Ltac hush tac :=
  lazymatch goal with
  | |- quiet (Done _) => exact I
  | |- quiet (ret _) => exact I
  | |- quiet (andthen _ _) => apply quiet_andthen; [hush tac|intros; hush tac]
  | |- quiet (Get _ _) => cbn [quiet]; intros; hush tac
  | |- quiet (New _ _) => cbn [quiet]; intros; hush tac
  | |- quiet (Put (Ours _) _ _) => cbn [quiet]; hush tac
  | |- quiet (if ?b then _ else _) => destruct b; hush tac
  | |- quiet (match ?x with _ => _ end) => destruct x; hush tac
  | |- _ => tac
  end.
Ltac small := first [apply quiet_read|apply quiet_plus|apply quiet_truthy|apply quiet_len|apply quiet_loop].
Lemma quiet_encode d A : quiet (b_encode d A).
Proof. unfold b_encode, b_string_to_int. cbv zeta. hush small. Qed.
Lemma quiet_get_bytes d u : quiet (b_get_bytes d u).
Proof. unfold b_get_bytes. hush small. Qed.
Lemma quiet_decode s A : quiet (b_decode s A).
Proof. unfold b_decode. hush small. Qed.
Ltac more := first [apply quiet_encode|apply quiet_get_bytes|apply quiet_decode|small].
Lemma quiet_sha256 P d : quiet (b_sha256 P d).
Proof. unfold b_sha256. hush more. Qed.
Lemma quiet_double P d : quiet (b_double_sha256 P d).
Proof. unfold b_double_sha256. hush ltac:(apply quiet_sha256). Qed.
Lemma quiet_ripemd P d : quiet (b_ripemd160 P d).
Proof. unfold b_ripemd160. hush more. Qed.
Lemma quiet_wif P d w : quiet (b_encode_wif P d w).
Proof. unfold b_encode_wif. cbv zeta. hush more. Qed.
Lemma quiet_call P A p : call P A p -> quiet p.
Proof.
  destruct 1.
  - apply quiet_encode.
  - unfold b_check_encode. cbv zeta. hush more.
  - apply quiet_decode.
  - unfold b_check_decode. cbv zeta. hush more.
  - apply quiet_get_bytes.
  - unfold b_bytes_reverse. hush more.
  - unfold b_bytes_to_string. hush more.
  - unfold b_bytes_to_integer. hush more.
  - apply quiet_ripemd.
  - apply quiet_sha256.
  - apply quiet_double.
  - unfold b_get_checksum. hush ltac:(apply quiet_double).
  - unfold b_hash160. hush ltac:(first [apply quiet_sha256|apply quiet_ripemd]).
  - apply quiet_wif.
  - unfold b_private_key_to_wif. hush ltac:(apply quiet_wif).
  - unfold b_PrivateKey_from_bytes. hush more.
  - unfold b_PublicKey_from_bytes. hush more.
  - unfold b_P2PKH_encode. hush more.
  - unfold b_intermediate_code. hush more.
  - unfold b_create_new_encrypted_wif. hush more.
Qed.

(** ** Results *)
Lemma run_loop {A} env (K : unit -> prog A) f : forall v d i X,
  match bytes_loop f v d with
  | Ok d' => forall i', snd (run env i' (K tt) [d']) = X
  | Raise e => Raise e = X
  end -> snd (run env i (andthen (b_bytes_loop f v (Ours 0)) K) [d]) = X.
Proof.
  induction f as [|f IH]; intros v d i X; cbn [b_bytes_loop bytes_loop]; destruct (0 <? v); intros H.
  - exact H.
  - apply H.
  - cbn [andthen run nth update]. apply IH. exact H.
  - apply H.
Qed.
Lemma result_decode env s A : result env (b_decode s A) = decode s A.
Proof.
  unfold result, b_decode, decode. destruct (ascii_encode s) as [x|e]; [|reflexivity]. cbn [bind andthen].
  destruct (decode_loop A x 0 0) as [[v n]|e]; [|reflexivity]. cbn [bind andthen run List.length app]. apply run_loop.
  destruct (bytes_loop _ v []) as [d'|e]; [|reflexivity]. intros i'. cbn [bind run List.length app nth update]. reflexivity.
Qed.
Lemma run_andthen_const {A B} (p : prog A) (f : A -> res B) : forall env i priv,
  snd (run env i (andthen p (fun a => Done (f a))) priv) = bind (snd (run env i p priv)) f.
Proof.
  induction p as [[a|e]|b k IH|[a|j] k IH|[a|j] b k IH]; intros env i priv; cbn [andthen run]; auto; try reflexivity.
  specialize (IH env (S i) priv). destruct (run env (S i) k priv), (run env (S i) (andthen k (fun a => Done (f a))) priv). exact IH.
Qed.
Lemma encode_of_value A n b : encode (repeat x00 n ++ lstrip0 b) A =
  bind (encode_loop (S (Z.to_nat (Z.log2 (string_to_int b)))) A (string_to_int b) [])
       (fun enc => bind (char_at A 0) (fun c0 => Ok (repeat c0 n ++ enc)%list)).
Proof.
  unfold encode. cbv zeta. rewrite !string_to_int_be2z, be2z_zeros, lstrip0_strip, be2z_strip.
  destruct (encode_loop _ A (be2z b) []) as [enc|e]; [|reflexivity]. cbn [bind].
  rewrite lstrip0_strip, strip_repeat, strip_idem. rewrite app_length, repeat_length, Nat.add_sub. reflexivity.
Qed.
Lemma zeros_strip b : (repeat x00 (List.length b - List.length (lstrip0 b)) ++ lstrip0 b = b)%list.
Proof.
  rewrite lstrip0_strip. destruct (strip_zeros_spec b) as [k E]. rewrite E at 1. rewrite app_length, repeat_length, Nat.add_sub. symmetry. exact E.
Qed.
Lemma run_encode env i a A : snd (run env i (b_encode (buf a) A) []) =
  encode (repeat x00 (List.length (env (S i) a) - List.length (lstrip0 (env (S (S i)) a))) ++ lstrip0 (env i a)) A.
Proof.
  rewrite encode_of_value. unfold b_encode, b_string_to_int, buf. cbn [read andthen run ret].
  destruct (encode_loop _ A (string_to_int (env i a)) []) as [enc|e]; [|reflexivity]. cbn [bind read andthen run ret].
  destruct (char_at A 0); reflexivity.
Qed.
Lemma run_encode_own env i b A : snd (run env i (b_encode (Array (Ours 0)) A) [b]) = encode b A.
Proof.
  rewrite <- (zeros_strip b) at 2. rewrite encode_of_value. unfold b_encode, b_string_to_int. cbn [read andthen run ret nth].
  destruct (encode_loop _ A (string_to_int b) []) as [enc|e]; [|reflexivity]. cbn [bind read andthen run ret nth].
  destruct (char_at A 0); reflexivity.
Qed.

(** ** Theorems *)
(** No call writes to an object of the caller, whatever happens to it meanwhile *)
Theorem C103_unchanged : forall P A (p : prog A) env, call P A p -> writes env p = [].
Proof. intros P A p env H. apply quiet_run. exact (quiet_call P A p H). Qed.
(** Given anything else, the programs are the functions of the other properties *)
Lemma run_get_bytes env i p u priv : run env i (b_get_bytes (Plain p) u) priv = ([], get_bytes p u).
Proof. unfold b_get_bytes, get_bytes. cbn [b_truthy andthen ret]. destruct (truthy p); reflexivity. Qed.
Lemma get_bytes_done p u : b_get_bytes (Plain p) u = Done (get_bytes p u).
Proof. unfold b_get_bytes, get_bytes. cbn [b_truthy andthen ret]. destruct (truthy p); reflexivity. Qed.
Theorem C103_same : forall P env,
  (forall b A, result env (b_encode (Const b) A) = encode b A) /\
  (forall b A, result env (b_check_encode P (Const b) A) = check_encode P b A) /\
  (forall p u, result env (b_get_bytes (Plain p) u) = get_bytes p u) /\
  (forall b, result env (b_bytes_reverse (Const b)) = Ok (bytes_reverse b)) /\
  (forall p, result env (b_bytes_to_string (Plain p)) = bytes_to_string p) /\
  (forall p, result env (b_sha256 P (Plain p)) = sha256 P p) /\
  (forall p, result env (b_double_sha256 P (Plain p)) = double_sha256 P p) /\
  (forall p, result env (b_get_checksum P (Plain p)) = get_checksum P p) /\
  (forall p, result env (b_ripemd160 P (Plain p)) = crypto_ripemd160 P p) /\
  (forall p, result env (b_hash160 P (Plain p)) = hash160 P p) /\
  (forall p w, result env (b_encode_wif P (Plain p) w) = encode_wif P p w) /\
  (forall p ap t al, result env (b_P2PKH_encode P (Plain p) ap t al) = P2PKH_encode P (PKData p) ap t al) /\
  (forall p u pw lot sq, result env (b_intermediate_code P u pw lot sq (Plain p)) = intermediate_code P u pw lot sq p) /\
  (forall p u self s t network, result env (b_create_new_encrypted_wif P u self s t (Plain p) network) = create_new_encrypted_wif P u self s t p network).
Proof.
  intros P env. unfold result.
  assert (E : forall b A i, snd (run env i (b_encode (Const b) A) []) = encode b A).
  { intros b A i. unfold b_encode, b_string_to_int, encode. cbv zeta. cbn [read andthen run ret].
    destruct (encode_loop _ A (string_to_int b) []) as [enc|e]; [|reflexivity]. cbn [andthen bind]. destruct (char_at A 0); reflexivity. }
  assert (S2 : forall p, b_sha256 P (Plain p) = Done (sha256 P p)).
  { intros p. unfold b_sha256, sha256. rewrite get_bytes_done. destruct (get_bytes p true); reflexivity. }
  assert (D2 : forall p, b_double_sha256 P (Plain p) = Done (double_sha256 P p)).
  { intros p. unfold b_double_sha256, double_sha256. rewrite S2. destruct (sha256 P p) as [d|e]; [|reflexivity]. cbn [andthen bind]. apply S2. }
  assert (R2 : forall p, b_ripemd160 P (Plain p) = Done (crypto_ripemd160 P p)).
  { intros p. unfold b_ripemd160. rewrite get_bytes_done. unfold crypto_ripemd160. destruct (get_bytes p true) as [b|e]; [|reflexivity]. cbn [andthen bind].
    destruct b as [|x l]; reflexivity. }
  split; [intros b A; apply E|]. split; [intros b A; apply E|]. split; [intros p u; rewrite run_get_bytes; reflexivity|]. split; [intros b; reflexivity|].
  split; [intros p; unfold b_bytes_to_string, bytes_to_string; cbn [b_truthy andthen ret]; destruct (truthy p); reflexivity|].
  split; [intros p; rewrite S2; reflexivity|]. split; [intros p; rewrite D2; reflexivity|].
  split; [intros p; unfold b_get_checksum, get_checksum; rewrite D2; destruct (double_sha256 P p); reflexivity|].
  split; [intros p; rewrite R2; reflexivity|].
  split; [intros p; unfold b_hash160, hash160; rewrite S2; destruct (sha256 P p) as [d|e]; [cbn [andthen bind]; rewrite R2; reflexivity|reflexivity]|].
  split; [|split; [|split]].
  - intros p w. unfold b_encode_wif, encode_wif. cbv zeta. rewrite get_bytes_done. destruct (get_bytes p true) as [k|e]; [|reflexivity]. cbn [andthen bind].
    destruct (negb (Nat.eqb (List.length k) 32)); [cbn [b_len]; destruct (py_len p); reflexivity|].
    destruct (integer_to_bytes w) as [pre|e]; [|reflexivity]. cbn [andthen bind].
    destruct (integer_to_bytes COMPRESSED_PRIVATE_KEY_PREFIX) as [suf|e]; [|reflexivity]. cbn [andthen bind].
    destruct (get_checksum P (PBytes (pre ++ k))) as [c|e]; [|reflexivity]. cbn [andthen bind]. destruct (encode _ _) as [x|e]; [|reflexivity]. cbn [andthen bind].
    destruct (get_checksum P (PBytes (pre ++ k ++ suf))) as [c'|e]; [|reflexivity]. cbn [andthen bind]. destruct (encode _ _) as [y|e]; reflexivity.
  - intros p ap t al. unfold b_P2PKH_encode, P2PKH_encode. rewrite get_bytes_done. destruct (integer_to_bytes _) as [pre|e]; [|reflexivity]. cbn [andthen bind].
    destruct (get_bytes p true) as [b|e]; [|reflexivity]. cbn [andthen bind]. destruct (PublicKey_from_bytes b) as [k|e]; reflexivity.
  - intros p u pw lot sq. unfold b_intermediate_code. cbn [b_truthy andthen ret]. rewrite get_bytes_done. unfold intermediate_code.
    destruct (truthy p); cbn [andthen bind ret run snd]; [|reflexivity]. destruct (get_bytes p true) as [b|e]; reflexivity.
  - intros p u self s t network. unfold b_create_new_encrypted_wif, create_new_encrypted_wif.
    destruct (select_network self network) as [n|e] eqn:S; [|reflexivity]. cbn [b_truthy andthen bind ret]. rewrite get_bytes_done.
    destruct (truthy p); cbn [andthen bind ret run snd]; [|reflexivity]. destruct (get_bytes p true) as [b|e]; reflexivity.
Qed.
(** A bytearray that stays as it is, where bytes are taken as they are: the result for bytes *)
Theorem C103_taken : forall P env a b, holds env a b ->
  (forall A, result env (b_encode (buf a) A) = encode b A) /\
  (forall A, result env (b_check_encode P (buf a) A) = check_encode P b A) /\
  result env (b_bytes_reverse (buf a)) = Ok (bytes_reverse b) /\
  (forall e s, result env (b_bytes_to_integer (buf a) e s) = Ok (bytes_to_integer_full b e s)) /\
  result env (b_PrivateKey_from_bytes (buf a)) = PrivateKey_from_bytes b /\
  result env (b_PublicKey_from_bytes (buf a)) = PublicKey_from_bytes b.
Proof.
  intros P env a b H. unfold result. split; [|split; [|split; [|split; [|split]]]].
  - intros A. rewrite run_encode, !H, zeros_strip. reflexivity.
  - intros A. unfold b_check_encode, check_encode, buf. cbv zeta. cbn [read andthen run plus ret List.length app]. rewrite !H. apply run_encode_own.
  - unfold b_bytes_reverse, buf. cbn [read andthen run ret List.length app nth update snd]. rewrite H. reflexivity.
  - intros e s. unfold b_bytes_to_integer, buf. cbn [read andthen run ret snd]. rewrite H. reflexivity.
  - unfold b_PrivateKey_from_bytes, buf. cbn [read andthen run ret snd]. rewrite H. reflexivity.
  - unfold b_PublicKey_from_bytes, buf. cbn [read andthen run ret snd]. rewrite H. reflexivity.
Qed.
(** Where bytes or hexadecimal text may be given: an empty one is as b"", any other is
    refused with TypeError, after the arguments that are looked at before it *)
Definition refuses {A} (env : nat -> nat -> bytes) (p : prog A) : Prop := result env p = Raise (Builtin TypeError).
Theorem C103_refused : forall P env a b, holds env a b -> b <> [] ->
  (forall u, refuses env (b_get_bytes (barg a) u)) /\ refuses env (b_bytes_to_string (barg a)) /\
  refuses env (b_sha256 P (barg a)) /\ refuses env (b_double_sha256 P (barg a)) /\ refuses env (b_get_checksum P (barg a)) /\
  refuses env (b_ripemd160 P (barg a)) /\ refuses env (b_hash160 P (barg a)) /\
  (forall w, refuses env (b_encode_wif P (barg a) w)) /\
  (forall t c n k, In t WIF_TYPES -> wif_prefix_of c n = Ok k -> refuses env (b_private_key_to_wif P (barg a) t c n)) /\
  (forall ap t al, 0 <= default default_address_prefix ap -> refuses env (b_P2PKH_encode P (barg a) ap t al)) /\
  (forall u pw lot sq, refuses env (b_intermediate_code P u pw lot sq (barg a))) /\
  (forall u self s t network w ap, session self network w ap -> refuses env (b_create_new_encrypted_wif P u self s t (barg a) network)).
Proof.
  intros P env a b H N. unfold refuses, result.
  assert (L : forall i, Nat.eqb (List.length (env i a)) 0 = false) by (intros i; rewrite H; destruct b; [congruence|reflexivity]).
  assert (W : forall i w, snd (run env i (b_encode_wif P (barg a) w) []) = Raise (Builtin TypeError)).
  { intros i w. unfold b_encode_wif, b_get_bytes, barg. cbn [b_truthy andthen run ret]. rewrite L. reflexivity. }
  repeat split.
  - intros u. unfold b_get_bytes, barg. cbn [b_truthy andthen run ret]. rewrite L. reflexivity.
  - unfold b_bytes_to_string, barg. cbn [b_truthy andthen run ret]. rewrite L. reflexivity.
  - unfold b_sha256, b_get_bytes, barg. cbn [b_truthy andthen run ret]. rewrite L. reflexivity.
  - unfold b_double_sha256, b_sha256, b_get_bytes, barg. cbn [b_truthy andthen run ret]. rewrite L. reflexivity.
  - unfold b_get_checksum, b_double_sha256, b_sha256, b_get_bytes, barg. cbn [b_truthy andthen run ret]. rewrite L. reflexivity.
  - unfold b_ripemd160, b_get_bytes, barg. cbn [b_truthy andthen run ret]. rewrite L. reflexivity.
  - unfold b_hash160, b_sha256, b_get_bytes, barg. cbn [b_truthy andthen run ret]. rewrite L. reflexivity.
  - intros w. apply W.
  - intros t c n k I K. unfold b_private_key_to_wif. apply str_in_spec in I. rewrite I, K. cbn [negb andthen]. 
    unfold b_encode_wif, b_get_bytes, barg. cbn [b_truthy andthen run ret]. rewrite L. reflexivity.
  - intros ap t al Hap. unfold b_P2PKH_encode. rewrite (pre_eq _ Hap). unfold b_get_bytes, barg. cbn [b_truthy andthen run ret]. rewrite L. reflexivity.
  - intros u pw lot sq. unfold b_intermediate_code, b_get_bytes, barg. cbn [b_truthy andthen run ret]. rewrite L. cbn [negb andthen run]. rewrite L. reflexivity.
  - intros u self s t network w ap HS. destruct (session_net_sel _ _ _ _ HS) as (n & Hn). unfold b_create_new_encrypted_wif. rewrite (ns_sel _ _ _ _ _ Hn).
    unfold b_get_bytes, barg. cbn [b_truthy andthen run ret]. rewrite L. cbn [negb andthen run]. rewrite L. reflexivity.
Qed.
(** An empty one: as b"", and for a salt or a seed as none *)
Theorem C103_empty : forall P env a, holds env a [] ->
  (forall u, result env (b_get_bytes (barg a) u) = Ok []) /\ result env (b_bytes_to_string (barg a)) = Ok [] /\
  result env (b_sha256 P (barg a)) = sha256 P (PBytes []) /\ result env (b_double_sha256 P (barg a)) = double_sha256 P (PBytes []) /\
  result env (b_get_checksum P (barg a)) = get_checksum P (PBytes []) /\
  result env (b_ripemd160 P (barg a)) = crypto_ripemd160 P (PBytes []) /\ result env (b_hash160 P (barg a)) = hash160 P (PBytes []) /\
  (forall w, result env (b_encode_wif P (barg a) w) = encode_wif P (PBytes []) w) /\
  (forall t c n, result env (b_private_key_to_wif P (barg a) t c n) = private_key_to_wif P (PBytes []) t c n) /\
  (forall ap t al, result env (b_P2PKH_encode P (barg a) ap t al) = P2PKH_encode P (PKData (PBytes [])) ap t al) /\
  (forall u pw lot sq, result env (b_intermediate_code P u pw lot sq (barg a)) = intermediate_code P u pw lot sq PNone) /\
  (forall u self s t network, result env (b_create_new_encrypted_wif P u self s t (barg a) network) = create_new_encrypted_wif P u self s t PNone network).
Proof.
  intros P env a H. unfold result.
  assert (G : forall u i, run env i (b_get_bytes (barg a) u) [] = ([], Ok [])).
  { intros u i. unfold b_get_bytes, barg. cbn [b_truthy andthen run ret]. rewrite H. reflexivity. }
  assert (W : forall w i, snd (run env i (b_encode_wif P (barg a) w) []) = encode_wif P (PBytes []) w).
  { intros w i. unfold b_encode_wif, b_get_bytes, barg. cbn [b_truthy andthen run ret]. rewrite H. cbn [List.length Nat.eqb negb andthen run b_len ret]. rewrite H. reflexivity. }
  split; [intros u; rewrite G; reflexivity|]. split; [|split; [|split; [|split; [|split; [|split; [|split; [|split; [|split; [|split]]]]]]]]].
  - unfold b_bytes_to_string, barg. cbn [b_truthy andthen run ret]. rewrite H. reflexivity.
  - unfold b_sha256, b_get_bytes, barg. cbn [b_truthy andthen run ret]. rewrite H. reflexivity.
  - unfold b_double_sha256, b_sha256 at 1, b_get_bytes, barg. cbn [b_truthy andthen run ret]. rewrite H. cbn [List.length Nat.eqb negb andthen ret].
    unfold b_sha256, b_get_bytes, double_sha256, sha256, get_bytes. cbn [b_truthy andthen ret].
    change (truthy (PBytes [])) with false. cbn [negb bind]. destruct (h_sha256 P []); reflexivity.
  - unfold b_get_checksum, b_double_sha256, b_sha256 at 1, b_get_bytes, barg. cbn [b_truthy andthen run ret]. rewrite H. cbn [List.length Nat.eqb negb andthen ret].
    unfold b_sha256, b_get_bytes, get_checksum, double_sha256, sha256, get_bytes. cbn [b_truthy andthen ret].
    change (truthy (PBytes [])) with false. cbn [negb bind]. destruct (h_sha256 P []); reflexivity.
  - unfold b_ripemd160, b_get_bytes, barg. cbn [b_truthy andthen run ret]. rewrite H. reflexivity.
  - unfold b_hash160, b_sha256, b_get_bytes, barg. cbn [b_truthy andthen run ret]. rewrite H. cbn [List.length Nat.eqb negb andthen ret].
    unfold b_ripemd160, b_get_bytes, hash160, sha256, crypto_ripemd160, get_bytes. cbn [b_truthy andthen ret].
    change (truthy (PBytes [])) with false. cbn [negb bind]. destruct (h_sha256 P []); reflexivity.
  - intros w. apply W.
  - intros t c n. unfold b_private_key_to_wif, private_key_to_wif. destruct (negb _); [reflexivity|].
    destruct (wif_prefix_of c n) as [wp|e]; [|reflexivity]. cbn [andthen bind].
    specialize (W wp 0%nat). rewrite <- W. clear W.
    transitivity (snd (run env 0 (let? x := b_encode_wif P (barg a) wp in Done ((fun x => Ok (if str_eqb t (str "wif") then fst x else snd x)) x)) [])).
    + assert (X : forall (p : prog (pystr * pystr)) i priv,
        snd (run env i (let? (w, wc) := p in ret (if str_eqb t (str "wif") then w else wc)) priv) =
        snd (run env i (let? x := p in Done ((fun x => Ok (if str_eqb t (str "wif") then fst x else snd x)) x)) priv)).
      { induction p as [[[w wc]|e]|b k IH|[o|j] k IH|[o|j] b k IH]; intros i priv; cbn [andthen run]; auto; try reflexivity.
        specialize (IH (S i) priv). do 2 destruct (run env (S i) _ priv). exact IH. }
      apply X.
    + rewrite run_andthen_const. destruct (snd (run env 0 (b_encode_wif P (barg a) wp) [])) as [[w wc]|e]; reflexivity.
  - intros ap t al. unfold b_P2PKH_encode, P2PKH_encode. destruct (integer_to_bytes _) as [p|e]; [|reflexivity]. cbn [andthen bind].
    unfold b_get_bytes, barg. cbn [b_truthy andthen run ret]. rewrite H. cbn [List.length Nat.eqb negb andthen ret].
    destruct (PublicKey_from_bytes []) as [k|e] eqn:K; [exfalso; vm_compute in K; discriminate K|]. cbn [andthen run snd].
    change (get_bytes (PBytes []) true) with (@Ok bytes []). cbn [bind]. rewrite K. reflexivity.
  - intros u pw lot sq. unfold b_intermediate_code, barg. cbn [b_truthy andthen run ret]. rewrite H. reflexivity.
  - intros u self s t network. unfold b_create_new_encrypted_wif, barg. destruct (select_network self network) as [n|e] eqn:S; [|unfold create_new_encrypted_wif; rewrite S; reflexivity].
    cbn [b_truthy andthen run ret]. rewrite H. reflexivity.
Qed.
(** The bytearrays that decode and bytes_reverse fill are their own: whatever happens to
    the caller's objects, the results are the same *)
Theorem C103_own : forall P env s A,
  result env (b_decode s A) = decode s A /\ result env (b_check_decode P s A) = check_decode P s A.
Proof.
  intros P env s A. split; [apply result_decode|]. unfold b_check_decode, check_decode.
  pose proof (run_andthen_const (b_decode s A) (fun dec => if negb (bytes_eqb (from_neg 4 dec) (upto 4 (h_sha256 P (h_sha256 P (upto_neg 4 dec)))))
    then Raise (Builtin ValueError) else Ok (upto_neg 4 dec)) env 0 []) as R.
  fold (result env (b_decode s A)) in R. rewrite result_decode in R. unfold bind in R at 1. unfold bind. rewrite <- R. unfold result.
  assert (X : forall (p : prog bytes) i priv, snd (run env i (let? dec := p in
      if negb (bytes_eqb (from_neg 4 dec) (upto 4 (h_sha256 P (h_sha256 P (upto_neg 4 dec))))) then Done (Raise (Builtin ValueError)) else ret (upto_neg 4 dec)) priv) =
    snd (run env i (let? dec := p in Done (if negb (bytes_eqb (from_neg 4 dec) (upto 4 (h_sha256 P (h_sha256 P (upto_neg 4 dec)))))
      then Raise (Builtin ValueError) else Ok (upto_neg 4 dec))) priv)).
  { clear. induction p as [[d|e]|b k IH|[o|j] k IH|[o|j] b k IH]; intros i priv; cbn [andthen run]; auto; try reflexivity.
    - destruct (negb _); reflexivity.
    - specialize (IH (S i) priv). do 2 destruct (run env (S i) _ priv). exact IH. }
  apply X.
Qed.
(** One that is changed while the call runs.  Reversed or read as a number: as it was at
    the first moment *)
Theorem C103_during_read : forall env a,
  result env (b_bytes_reverse (buf a)) = Ok (bytes_reverse (env 0%nat a)) /\
  (forall e s, result env (b_bytes_to_integer (buf a) e s) = Ok (bytes_to_integer_full (env 0%nat a) e s)).
Proof. intros env a. split; [|intros e s]; reflexivity. Qed.
(** Encoded: the digits are those of the first moment, and only the number of zero bytes
    in front may be another *)
Theorem C103_during_encode : forall env a A, exists k n rest,
  env 0%nat a = (repeat x00 k ++ rest)%list /\ (forall r, rest <> x00 :: r) /\
  result env (b_encode (buf a) A) = encode (repeat x00 n ++ rest) A.
Proof.
  intros env a A. destruct (strip_zeros_spec (env 0%nat a)) as [k E]. exists k, (List.length (env 1%nat a) - List.length (lstrip0 (env 2%nat a)))%nat, (strip_zeros (env 0%nat a)).
  split; [exact E|]. split.
  - intros r R. pose proof (strip_idem (env 0%nat a)) as X. rewrite R in X. cbn in X.
    assert (L : (List.length (strip_zeros r) <= List.length r)%nat) by (destruct (strip_zeros_spec r) as [q Q]; rewrite Q at 2; rewrite app_length; lia).
    rewrite X in L. cbn in L. lia.
  - unfold result. rewrite run_encode, lstrip0_strip. f_equal. f_equal. apply lstrip0_strip.
Qed.
(** ... and encoded with a checksum: the text holds the contents of one moment and the
    checksum of those of another, so that check_decode takes it for the former or, unless
    the two have the same checksum, refuses it *)
Theorem C103_during_check_encode : forall P env a A, prims_ok P -> alphabet_ok A -> exists i j s,
  (i <= j)%nat /\ result env (b_check_encode P (buf a) A) = Ok s /\
  (checksum4 P (env i a) = checksum4 P (env j a) -> check_decode P s A = Ok (env j a)) /\
  (checksum4 P (env i a) <> checksum4 P (env j a) -> check_decode P s A = Raise (Builtin ValueError)).
Proof.
  intros P env a A HP HA. exists 0%nat, 1%nat.
  assert (R : result env (b_check_encode P (buf a) A) = encode (env 1%nat a ++ checksum4 P (env 0%nat a)) A).
  { unfold result, b_check_encode, buf. cbv zeta. cbn [read andthen run plus ret List.length app]. apply run_encode_own. }
  destruct (C01_decode_encode A (env 1%nat a ++ checksum4 P (env 0%nat a)) HA) as (s & E & D).
  exists s. split; [lia|]. split; [rewrite R; exact E|]. split; intros H.
  - apply (check_decode_decode P HP). rewrite D, H. reflexivity.
  - destruct (check_decode P s A) as [d|e] eqn:C.
    + exfalso. apply (check_decode_decode P HP) in C. rewrite D in C. apply Ok_inj in C. apply app_inj_r in C; [|rewrite !checksum4_length by exact HP; reflexivity].
      destruct C as [<- C]. congruence.
    + apply (check_decode_err P A HA) in C. destruct C as [[-> _]|[_ N]]; [reflexivity|].
      exfalso. rewrite (C04_non_ascii_rejected A s N) in D. discriminate D.
Qed.
(** A salt or a seed: drawn, refused, or as an empty one; its contents are never used *)
Theorem C103_during_random : forall P env a,
  (forall u pw lot sq, let r := result env (b_intermediate_code P u pw lot sq (barg a)) in
     r = intermediate_code P u pw lot sq PNone \/ r = Raise (Builtin TypeError) \/ exists t, r = Raise (Lib CError t)) /\
  (forall u self s t network, let r := result env (b_create_new_encrypted_wif P u self s t (barg a) network) in
     r = create_new_encrypted_wif P u self s t PNone network \/ r = Raise (Builtin TypeError) \/
     r = create_new_encrypted_wif P [] self s t PNone network).
Proof.
  intros P env a. split.
  - intros u pw lot sq r. unfold r, result, b_intermediate_code, b_get_bytes, barg. cbn [b_truthy andthen run ret].
    destruct (negb (Nat.eqb (List.length (env 0%nat a)) 0)); [|left; reflexivity]. cbn [andthen run b_truthy ret].
    destruct (negb (negb (Nat.eqb (List.length (env 1%nat a)) 0))); [|right; left; reflexivity]. right; right. eexists. reflexivity.
  - intros u self s t network r. unfold r, result, b_create_new_encrypted_wif, b_get_bytes, barg.
    destruct (select_network self network) as [n|e] eqn:S; [|left; unfold create_new_encrypted_wif; rewrite S; reflexivity]. cbn [b_truthy andthen run ret].
    destruct (negb (Nat.eqb (List.length (env 0%nat a)) 0)); [|left; reflexivity]. cbn [andthen run b_truthy ret].
    destruct (negb (negb (Nat.eqb (List.length (env 1%nat a)) 0))); [|right; left; reflexivity]. right; right. reflexivity.
Qed.

(** ** Examples *)
(** a bytearray that holds 00 00 05, all the time *)
Definition still : nat -> nat -> bytes := fun _ _ => [x00; x00; x05].
Example C103_still : holds still 0 [x00; x00; x05] /\ result still (b_encode (buf 0) base58_alphabet) = Ok (str "116") /\
  result still (b_bytes_reverse (buf 0)) = Ok [x05; x00; x00] /\ refuses still (b_sha256 toy (barg 0)).
Proof. split; [intros i; reflexivity|]. repeat split; vm_compute; reflexivity. Qed.
(** one that is emptied after the first moment: the text loses its leading letters *)
Definition emptied : nat -> nat -> bytes := fun i _ => if Nat.eqb i 0 then [x00; x00; x05] else [].
Example C103_emptied : result emptied (b_encode (buf 0) base58_alphabet) = Ok (str "6") /\
  result emptied (b_get_bytes (barg 0) true) = Raise (Builtin TypeError) /\
  exists t, result emptied (b_intermediate_code toy (repeat x11 8) (str "pw") None None (barg 0)) = Raise (Lib CError t).
Proof. split; [vm_compute; reflexivity|]. split; [vm_compute; reflexivity|]. eexists. vm_compute. reflexivity. Qed.
(** one that is rewritten between the two readings of check_encode: a text that nobody accepts *)
Definition rewritten : nat -> nat -> bytes := fun i _ => if Nat.eqb i 0 then [x01] else [x02].
(** for a toy hash that is not constant *)
Definition toy_hash : prims := {|
  h_sha256 := fun b => firstn 32 (b ++ repeat x00 32); h_ripemd160 := h_ripemd160 toy; h_scrypt := h_scrypt toy;
  h_aes_enc := h_aes_enc toy; h_aes_dec := h_aes_dec toy; h_nfc := h_nfc toy |}.
Example C103_rewritten : exists s, result rewritten (b_check_encode toy_hash (buf 0) base58_alphabet) = Ok s /\
  check_decode toy_hash s base58_alphabet = Raise (Builtin ValueError) /\ decode s base58_alphabet = Ok (x02 :: checksum4 toy_hash [x01]).
Proof. eexists. split; [vm_compute; reflexivity|]. split; vm_compute; reflexivity. Qed.
(** the calls are calls, with this argument *)
Example C103_a_call : call toy _ (b_bytes_reverse (buf 0)) /\ writes rewritten (b_bytes_reverse (buf 0)) = [].
Proof. split; [apply call_bytes_reverse; exact I|]. apply (C103_unchanged toy). apply call_bytes_reverse. exact I. Qed.
