(** * C80: what is fixed at import and what is looked up at each call. *)
From Coq Require Import Lia.
From Verif Require Import Py Prims Const Spec PyFacts Exceptions ErrorFacts Utils UtilsFacts Base58 Cryptocurrencies P2PKHAddress Wif Bip38 History Worlds WorldFuncs
  SpecBip38 SpecSession Base58Facts CodecFacts CodecFacts2 Bip38Facts PropCodec PropIntermediate PropWorlds Toy.

(** ** Reading a history *)
(** The operations that Worlds.v knows, in order: those that change tables or
    objects, and the methods of BIP38 *)
Definition table_ops (h : list fop) : list wop :=
  List.concat (List.map (fun o => match o with Do o => [o] | _ => [] end) h).
(** What is in the table of class [k] under [n] after [h]; Bitcoin is class 0 *)
Definition entry_now (cs : nat -> coin) (h : list fop) (k : nat) (n : pystr) : option (Z * Z) := entry cs (table_ops h) k n.
(** P2PKHAddress.address_prefix after [h], if it was [a] at import *)
Definition assigned (h : list fop) (a : Z) : Z :=
  fold_left (fun a o => match o with SetAddressPrefix b => b | _ => a end) h a.
(** The outcome of the operation [o] done after [h1] *)
Definition outcome_of (P : prims) (source : nat -> byte) (cs : nat -> coin) (h1 : list fop) (o : fop) (h2 : list fop) : option foutcome :=
  match ftrace P source cs (h1 ++ o :: h2) with
  | Ok l => nth_error l (List.length h1)
  | Raise _ => None
  end.
(** A class whose table holds just this *)
Definition class_with (n : pystr) (e : option (Z * Z)) : coin :=
  {| c_name := str "Coin"; c_networks := match e with Some v => [(n, v)] | None => [] end; c_alphabet := None |}.

(** ** The model keeps these accounts *)
Lemma frun_cons P source F o h : frun P source F (o :: h) =
  (fst (frun P source (fst (fexec P source F o)) h), snd (fexec P source F o) :: snd (frun P source (fst (fexec P source F o)) h)).
Proof. cbn [frun]. destruct (fexec P source F o) as [F1 x]. cbn [fst snd]. destruct (frun P source F1 h); reflexivity. Qed.
Lemma frun_length P source : forall h F, List.length (snd (frun P source F h)) = List.length h.
Proof. induction h as [|o h IH]; intros F; [reflexivity|]. rewrite frun_cons. cbn [snd List.length]. rewrite IH. reflexivity. Qed.
Lemma frun_nth P source o h2 : forall h1 F, nth_error (snd (frun P source F (h1 ++ o :: h2))) (List.length h1) =
  Some (snd (fexec P source (fst (frun P source F h1)) o)).
Proof.
  induction h1 as [|x h1 IH]; intros F; cbn [app List.length]; rewrite frun_cons; cbn [snd nth_error]; [reflexivity|].
  rewrite IH. rewrite (frun_cons P source F x h1). reflexivity.
Qed.
Lemma frun_inner P source : forall h F,
  inner (fst (frun P source F h)) = fst (wrun P source (inner F) (table_ops h)) /\
  default_wif_prefix (fst (frun P source F h)) = default_wif_prefix F /\
  class_address_prefix (fst (frun P source F h)) = assigned h (class_address_prefix F) /\
  List.concat (List.map (fun x => match x with FDo y => [y] | _ => [] end) (snd (frun P source F h))) = snd (wrun P source (inner F) (table_ops h)).
Proof.
  induction h as [|o h IH]; intros F; [repeat split|]. rewrite frun_cons. cbn [fst snd List.map List.concat].
  destruct (IH (fst (fexec P source F o))) as (I1 & I2 & I3 & I4). rewrite I1, I2, I3, I4.
  destruct o; try (repeat split; reflexivity).
  change (table_ops (Do o :: h)) with (o :: table_ops h). cbn [fexec]. rewrite wrun_cons.
  destruct (wexec P source (inner F) o) as [W x]. repeat split.
Qed.
Lemma imported_eq cs w a : entry_now cs [] 0 (str "mainnet") = Some (w, a) ->
  imported cs = Ok {| inner := fresh cs; default_wif_prefix := w; class_address_prefix := a |}.
Proof.
  unfold entry_now, entry. cbn [table_ops List.map List.concat fold_left]. intros H. unfold imported, wif_prefix_of, address_prefix_of. rewrite H. reflexivity.
Qed.
Lemma outcome_eq P source cs w a h1 o h2 : entry_now cs [] 0 (str "mainnet") = Some (w, a) ->
  exists F, outcome_of P source cs h1 o h2 = Some (snd (fexec P source F o)) /\
    default_wif_prefix F = w /\ class_address_prefix F = assigned h1 a /\
    forall k n, dict_get n (c_networks (classes (inner F) k)) = entry_now cs h1 k n.
Proof.
  intros H. set (F0 := {| inner := fresh cs; default_wif_prefix := w; class_address_prefix := a |}).
  exists (fst (frun P source F0 h1)). unfold outcome_of, ftrace. rewrite (imported_eq _ _ _ H). cbn [bind]. fold F0. rewrite frun_nth.
  destruct (frun_inner P source h1 F0) as (I1 & I2 & I3 & _). split; [reflexivity|]. split; [exact I2|]. split; [exact I3|].
  intros k n. rewrite I1. apply (entry_run P source (table_ops h1) (fresh cs)).
Qed.

(** ** C80 *)
(** The package can be imported iff Bitcoin has a mainnet. *)
Theorem C80_import : forall P source cs h,
  (entry_now cs [] 0 (str "mainnet") = None -> ftrace P source cs h = Raise (Builtin KeyError)) /\
  (entry_now cs [] 0 (str "mainnet") <> None -> exists l, ftrace P source cs h = Ok l /\ List.length l = List.length h).
Proof.
  intros P source cs h. split; intros H.
  - unfold ftrace, imported, wif_prefix_of. unfold entry_now, entry in H. cbn [table_ops List.map List.concat fold_left] in H. rewrite H. reflexivity.
  - destruct (entry_now cs [] 0 (str "mainnet")) as [[w a]|] eqn:E; [|congruence]. unfold ftrace. rewrite (imported_eq _ _ _ E). cbn [bind].
    eexists. split; [reflexivity|]. apply frun_length.
Qed.
(** encode_wif and decode_wif without a prefix use the one of the import, and
    P2PKHAddress without a prefix the one of the import or the last assigned,
    whatever was done to the tables; a given prefix is used. *)
Theorem C80_fixed : forall P source cs w a h1 h2, entry_now cs [] 0 (str "mainnet") = Some (w, a) ->
  let after o := outcome_of P source cs h1 o h2 in
  (forall key, after (EncodeWif key None) = Some (FPair (encode_wif P key w))) /\
  (forall s, after (DecodeWif s None) = Some (FParts (decode_wif s w))) /\
  (forall key t al, after (Address key None t al) = Some (FText (P2PKH_encode P key (Some (assigned h1 a)) t al))) /\
  (forall s al, after (ReadAddress s None al) = Some (FText (P2PKH_decode P s (Some (assigned h1 a)) al))) /\
  (forall key z, after (EncodeWif key (Some z)) = Some (FPair (encode_wif P key z))) /\
  (forall s z, after (DecodeWif s (Some z)) = Some (FParts (decode_wif s z))) /\
  (forall key z t al, after (Address key (Some z) t al) = Some (FText (P2PKH_encode P key (Some z) t al))) /\
  (forall s z al, after (ReadAddress s (Some z) al) = Some (FText (P2PKH_decode P s (Some z) al))).
Proof.
  intros P source cs w a h1 h2 H after.
  repeat split; intros; match goal with |- after ?o = _ => destruct (outcome_eq P source cs w a h1 o h2 H) as (F & E & E1 & E2 & _) end;
    unfold after; rewrite E; cbn [fexec snd default]; rewrite ?E1, ?E2; reflexivity.
Qed.
(** The other four look up the network in the table as it is when they are
    called: in Bitcoin's and under "mainnet" when nothing is given. *)
Theorem C80_current : forall P source cs h1 h2 k n, entry_now cs [] 0 (str "mainnet") <> None ->
  let after o := outcome_of P source cs h1 o h2 in
  let name := default (str "mainnet") n in let e := entry_now cs h1 (default 0%nat k) name in let c := class_with name e in
  (forall key t, after (ToWif key t k n) = Some (FText (private_key_to_wif P key (default (str "wif-compressed") t) c name))) /\
  (forall s, after (ToKey s k n) = Some (FText (wif_to_private_key s c name))) /\
  (forall s, after (WifType s k n) = Some (FText (get_wif_type s c name))) /\
  (forall s, after (WifChecksum s k n) = Some (FText (get_wif_checksum s c name))).
Proof.
  intros P source cs h1 h2 k n H after name e c. destruct (entry_now cs [] 0 (str "mainnet")) as [[w a]|] eqn:E0; [clear H|congruence].
  assert (C : dict_get name (c_networks c) = e).
  { unfold c, class_with. cbn [c_networks]. destruct e; cbn [dict_get]; [|reflexivity]. rewrite (proj2 (str_eqb_spec name name) eq_refl). reflexivity. }
  repeat split; intros; match goal with |- after ?o = _ => destruct (outcome_eq P source cs w a h1 o h2 E0) as (F & E & _ & _ & E3) end;
    unfold after; rewrite E; cbn [fexec snd]; fold name; specialize (E3 (default 0%nat k) name); fold e in E3; rewrite <- C in E3;
    unfold private_key_to_wif, wif_to_private_key, get_wif_type, get_wif_checksum, wif_prefix_of; rewrite E3; reflexivity.
Qed.
(** When the entry is gone: KeyError. *)
Theorem C80_gone : forall P source cs h1 h2 k n, entry_now cs [] 0 (str "mainnet") <> None ->
  entry_now cs h1 (default 0%nat k) (default (str "mainnet") n) = None ->
  let after o := outcome_of P source cs h1 o h2 in let gone := Some (FText (Raise (Builtin KeyError))) in
  (forall key t, In (default (str "wif-compressed") t) [str "wif"; str "wif-compressed"] -> after (ToWif key t k n) = gone) /\
  (forall s, after (ToKey s k n) = gone /\ after (WifType s k n) = gone /\ after (WifChecksum s k n) = gone).
Proof.
  intros P source cs h1 h2 k n H G after gone. destruct (C80_current P source cs h1 h2 k n H) as (A & B & C & D). rewrite G in A, B, C, D. split.
  - intros key t T. unfold after. rewrite A. unfold private_key_to_wif. apply str_in_spec in T. change [str "wif"; str "wif-compressed"] with WIF_TYPES in T. rewrite T. reflexivity.
  - intros s. unfold after. rewrite B, C, D. repeat split.
Qed.
(** The two kinds agree as long as Bitcoin's mainnet has the prefix it had at
    import, and disagree as soon as it has another one (of as many bytes): what
    one kind writes, the other does not read. *)
Theorem C80_agree : forall P source cs w a a' h1 h2 key k c, prims_ok P -> 0 <= w -> key_argument key k -> List.length k = 32%nat ->
  entry_now cs [] 0 (str "mainnet") = Some (w, a) -> entry_now cs h1 0 (str "mainnet") = Some (w, a') ->
  let after o := outcome_of P source cs h1 o h2 in
  exists s s0 s1 ck, after (ToWif key (Some (wif_name c)) None None) = Some (FText (Ok s)) /\
    after (EncodeWif key None) = Some (FPair (Ok (s0, s1))) /\ s = (if c then s1 else s0) /\
    after (DecodeWif s None) = Some (FParts (Ok (k, wif_name c, ck))) /\ after (ToKey s None None) = Some (FText (Ok (hex k))).
Proof.
  intros P source cs w a a' h1 h2 key k c HP Hw A L E0 E1 after.
  destruct (C80_fixed P source cs w a h1 h2 E0) as (EW & DW & _). assert (N : entry_now cs [] 0 (str "mainnet") <> None) by congruence.
  destruct (C80_current P source cs h1 h2 None None N) as (TW & TK & _). cbn [default] in TW, TK. rewrite E1 in TW, TK.
  assert (D : dict_get (str "mainnet") (c_networks (class_with (str "mainnet") (Some (w, a')))) = Some (w, a')) by reflexivity.
  exists (wif_of P w c k), (wif_of P w false k), (wif_of P w true k). eexists. unfold after. rewrite (TW key (Some (wif_name c))), EW, DW, TK. cbn [default].
  rewrite (private_key_to_wif_eq P key k c _ _ _ _ D Hw (key_argument_bytes _ _ A) L), (encode_wif_eq P key k w Hw (key_argument_bytes _ _ A) L).
  rewrite (wif_to_private_key_eq _ _ _ _ _ D), (decode_wif_of P w c k HP Hw L). destruct c; repeat split.
Qed.
Theorem C80_disagree : forall P source cs w a w' a' pw pw' h1 h2 key k, prims_ok P -> key_argument key k -> List.length k = 32%nat ->
  entry_now cs [] 0 (str "mainnet") = Some (w, a) -> entry_now cs h1 0 (str "mainnet") = Some (w', a') ->
  w <> w' -> minimal_bytes w pw -> minimal_bytes w' pw' -> List.length pw = List.length pw' ->
  let after o := outcome_of P source cs h1 o h2 in
  let invalid {A} : res A := Raise (Lib CWIFError "Invalid Wallet Import Format (WIF)") in
  (forall c, exists s, after (ToWif key (Some (wif_name c)) None None) = Some (FText (Ok s)) /\
     after (ToKey s None None) = Some (FText (Ok (hex k))) /\ after (DecodeWif s None) = Some (FParts invalid)) /\
  (exists s0 s1, after (EncodeWif key None) = Some (FPair (Ok (s0, s1))) /\
     after (ToKey s0 None None) = Some (FText invalid) /\ after (ToKey s1 None None) = Some (FText invalid)).
Proof.
  intros P source cs w a w' a' pw pw' h1 h2 key k HP A L E0 E1 NW M M' LL after invalid.
  pose proof (minimal_nonneg _ _ M) as Hw. pose proof (minimal_nonneg _ _ M') as Hw'.
  destruct (C80_fixed P source cs w a h1 h2 E0) as (EW & DW & _). assert (N : entry_now cs [] 0 (str "mainnet") <> None) by congruence.
  destruct (C80_current P source cs h1 h2 None None N) as (TW & TK & _). cbn [default] in TW, TK. rewrite E1 in TW, TK.
  assert (D : dict_get (str "mainnet") (c_networks (class_with (str "mainnet") (Some (w', a')))) = Some (w', a')) by reflexivity.
  split.
  - intros c. exists (wif_of P w' c k). unfold after. rewrite (TW key (Some (wif_name c))), TK, DW. cbn [default].
    rewrite (private_key_to_wif_eq P key k c _ _ _ _ D Hw' (key_argument_bytes _ _ A) L), (wif_to_private_key_eq _ _ _ _ _ D), (decode_wif_of P w' c k HP Hw' L).
    rewrite (C09_other_prefix P w' w pw' pw c k _ HP L M' M) by (congruence || apply wif_of_text, Hw'). repeat split.
  - exists (wif_of P w false k), (wif_of P w true k). unfold after. rewrite EW, !TK, (encode_wif_eq P key k w Hw (key_argument_bytes _ _ A) L).
    rewrite !(wif_to_private_key_eq _ _ _ _ _ D).
    rewrite (C09_other_prefix P w w' pw pw' false k _ HP L M M'), (C09_other_prefix P w w' pw pw' true k _ HP L M M') by (congruence || apply wif_of_text, Hw). repeat split.
Qed.
(** None of these calls has an effect on tables and objects: the rest of the
    process goes on as if they were not there. *)
Theorem C80_frame : forall P source cs h l, ftrace P source cs h = Ok l ->
  List.concat (List.map (fun x => match x with FDo y => [y] | _ => [] end) l) = wtrace P source cs (table_ops h).
Proof.
  intros P source cs h l H. unfold ftrace in H. destruct (imported cs) as [F|] eqn:E; cbn [bind] in H; [|discriminate]. apply Ok_inj in H. subst l.
  destruct (frun_inner P source h F) as (_ & _ & _ & I). rewrite I. unfold wtrace.
  unfold imported in E. destruct (wif_prefix_of _ _); cbn [bind] in E; [|discriminate]. destruct (address_prefix_of _ _); cbn [bind] in E; [|discriminate].
  apply Ok_inj in E. subst F. reflexivity.
Qed.

(** ** The hypotheses are met *)
(** Bitcoin's mainnet gets testnet's prefixes; later it is removed. *)
Definition reassigned : list fop := [Do (PutWif 0 (str "mainnet") 0xef); SetAddressPrefix 0x6f; Do (PutAddress 0 (str "mainnet") 5)].
Example C80_met : entry_now bitcoin_classes [] 0 (str "mainnet") = Some (0x80, 0) /\ entry_now bitcoin_classes reassigned 0 (str "mainnet") = Some (0xef, 5) /\
  assigned reassigned 0 = 0x6f /\ entry_now bitcoin_classes (reassigned ++ [Do (Del 0 (str "mainnet"))]) 0 (str "mainnet") = None /\
  minimal_bytes 0x80 [x80] /\ minimal_bytes 0xef [xef].
Proof. vm_compute. repeat split; (discriminate || reflexivity). Qed.
(** decode_wif() refuses what private_key_to_wif() has just written. *)
Example C80_run : forall source, let after o := outcome_of toy source bitcoin_classes reassigned o [] in
  exists s, after (ToWif (PBytes (List.repeat x01 32)) (Some (str "wif")) None None) = Some (FText (Ok s)) /\
    after (DecodeWif s None) = Some (FParts (Raise (Lib CWIFError "Invalid Wallet Import Format (WIF)"))).
Proof.
  intros source after. destruct C80_met as (E0 & E1 & _ & _ & M & M').
  destruct (C80_disagree toy source bitcoin_classes _ _ _ _ _ _ reassigned [] (PBytes (List.repeat x01 32)) (List.repeat x01 32) toy_ok
    (or_introl eq_refl) eq_refl E0 E1 ltac:(discriminate) M M' eq_refl) as [H _]. destruct (H false) as (s & T & _ & D). exists s. split; [exact T|exact D].
Qed.
