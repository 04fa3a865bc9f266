(** * C74: the object or its class's table is changed while a method runs. *)
From Coq Require Import Lia.
From Verif Require Import Py Prims Const Spec PyFacts Exceptions ErrorFacts Utils UtilsFacts Base58 SpecCurve SpecBip38 SpecRecords SpecSession SpecReads Cryptocurrencies P2PKHAddress Wif Bip38 History Worlds Races
  CodecFacts CodecFacts2 Bip38Facts Bip38Facts2 Sessions RecordFacts ECFacts Toy PropIntermediate PropCreate PropEncrypt PropDecrypt PropSession PropWorlds.

(** The entry for [n] in the table that a view of the object finds *)
Definition found (v : bip38) (n : pystr) : option (Z * Z) := dict_get n (c_networks (s_cryptocurrency v)).
(** An object of a class with one entry *)
Definition single (n : pystr) (w a : Z) : bip38 :=
  {| s_cryptocurrency := one_entry n w a; s_networks := [n]; s_network := n; s_alphabet := Bitcoin_ALPHABET |}.
Lemma single_session n w a : 0 <= w -> 0 <= a -> session (single n w a) (Some n) w a /\ session (single n w a) None w a.
Proof.
  intros Hw Ha. assert (D : dict_get n (c_networks (one_entry n w a)) = Some (w, a)).
  { cbn [one_entry c_networks dict_get]. rewrite (proj2 (str_eqb_spec n n) eq_refl). reflexivity. }
  assert (HC : coin_ok (one_entry n w a)). { intros m w' a' [H|[]]. inversion H; subst. auto. }
  split; exists (one_entry n w a), n; (split; [exact HC|split; [apply one_init|]]); [|exact D].
  destruct n; exact D.
Qed.
Lemma select_at self network : let n := chosen network (s_network (self 0%nat)) in
  (In n (s_networks (self 1%nat)) -> select_network_at self network = Ok n) /\
  (~ In n (s_networks (self 1%nat)) -> select_network_at self network = Raise (wrong_network (s_networks (self 2%nat)))).
Proof.
  intros n. unfold select_network_at. change (match network with Some (x :: r) => x :: r | _ => s_network (self 0%nat) end) with n.
  split; intros H.
  - rewrite (proj2 (str_in_spec _ _) H). reflexivity.
  - destruct (str_in n _) eqn:E; [apply str_in_spec in E; contradiction|]. cbn [negb]. unfold wrong_network.
    destruct (s_networks (self 2%nat)); [reflexivity|]. rewrite lib_error_list by discriminate. reflexivity.
Qed.
Lemma select_single n w a network : chosen network n = n -> select_network (single n w a) network = Ok n.
Proof. intros C. rewrite (select_chosen (single n w a)); cbn [single s_network s_networks]; rewrite C; [reflexivity|left; reflexivity]. Qed.
Lemma found_w v n w a : found v n = Some (w, a) -> wif_prefix_of (s_cryptocurrency v) n = Ok w.
Proof. apply wif_prefix_eq. Qed.
Lemma found_a v n w a : found v n = Some (w, a) -> address_prefix_of (s_cryptocurrency v) n = Ok a.
Proof. apply address_prefix_eq. Qed.
Lemma single_w n w a : wif_prefix_of (one_entry n w a) n = Ok w.
Proof. apply (wif_prefix_eq _ _ _ a). cbn [one_entry c_networks dict_get]. rewrite (proj2 (str_eqb_spec n n) eq_refl). reflexivity. Qed.
Lemma single_a n w a : address_prefix_of (one_entry n w a) n = Ok a.
Proof. apply (address_prefix_eq _ _ w). cbn [one_entry c_networks dict_get]. rewrite (proj2 (str_eqb_spec n n) eq_refl). reflexivity. Qed.

(** ** Nothing changes: the methods of the other theorems *)
Theorem C74_undisturbed : forall P v,
  (forall wif pw network, encrypt_at P (fun _ => v) wif pw network = encrypt P v wif pw network) /\
  (forall random code t seed network, create_at P random (fun _ => v) code t seed network = create_new_encrypted_wif P random v code t seed network) /\
  (forall pw code network detail, confirm_at P (fun _ => v) pw code network detail = confirm_code P v pw code network detail) /\
  (forall s pw network detail, decrypt_at P (fun _ => v) s pw network detail = decrypt P v s pw network detail).
Proof.
  intros P v. assert (F : forall n, select_network (fixed v n) (Some n) = Ok n).
  { intros n. assert (C : chosen (Some n) n = n) by (destruct n; reflexivity). rewrite (select_chosen (fixed v n)); cbn [fixed s_network s_networks]; rewrite C; [reflexivity|left; reflexivity]. }
  split; [|split; [|split]].
  - reflexivity.
  - intros random code t seed network. unfold create_at, create_new_encrypted_wif. change (select_network_at (fun _ => v) network) with (select_network v network).
    destruct (select_network v network) as [n|e]; cbn [bind]; [|reflexivity]. rewrite F. cbn [bind]. reflexivity.
  - intros pw code network detail. unfold confirm_at, confirm_code. change (select_network_at (fun _ => v) network) with (select_network v network).
    destruct (select_network v network) as [n|e]; cbn [bind]; [|reflexivity]. rewrite F. cbn [bind]. reflexivity.
  - reflexivity.
Qed.
(** ** The check *)
Theorem C74_refused : forall P self network, ~ In (chosen network (s_network (self 0%nat))) (s_networks (self 1%nat)) ->
  let e := wrong_network (s_networks (self 2%nat)) in
  (forall wif pw, encrypt_at P self wif pw network = Raise e) /\
  (forall random code t seed, create_at P random self code t seed network = Raise e) /\
  (forall pw code detail, confirm_at P self pw code network detail = Raise e) /\
  (forall s pw detail, decrypt_at P self s pw network detail = Raise e).
Proof.
  intros P self network H e. pose proof (proj2 (select_at self network) H) as S.
  unfold encrypt_at, create_at, confirm_at, decrypt_at. rewrite S. repeat split; reflexivity.
Qed.

(** ** Methods that look up once: the result is that for the entry they find *)
Section One.
Variables (P : prims) (self : nat -> bip38) (network : option pystr) (self' : bip38) (network' : option pystr) (w a : Z).
Let n := chosen network (s_network (self 0%nat)).
Hypothesis HP : prims_ok P.
Hypothesis HI : In n (s_networks (self 1%nat)).
Hypothesis Hw : 0 <= w.
Hypothesis Ha : 0 <= a.
Hypothesis HS : session self' network' w a.
Lemma fixed_net : found (self 2%nat) n = Some (w, a) -> net_sel (fixed (self 2%nat) n) (Some n) n w a.
Proof.
  intros HF. assert (C : chosen (Some n) n = n) by (destruct n; reflexivity). constructor; trivial.
  rewrite (select_chosen (fixed (self 2%nat) n)); cbn [fixed s_network s_networks]; rewrite C; [reflexivity|left; reflexivity].
Qed.
Lemma create_at_eq random code t seed : found (self 2%nat) n = Some (w, a) ->
  create_at P random self code t seed network = create_new_encrypted_wif P random self' code t seed network'.
Proof.
  intros HF. destruct (session_net_sel _ _ _ _ HS) as (n' & N'). unfold create_at. rewrite (proj1 (select_at self network) HI). cbn [bind]. fold n.
  rewrite (create_eq P HP _ _ _ _ _ _ _ _ _ (fixed_net HF)), (create_eq P HP _ _ _ _ _ _ _ _ _ N'). reflexivity.
Qed.
Lemma confirm_at_eq pw code detail : found (self 2%nat) n = Some (w, a) ->
  confirm_at P self pw code network detail = confirm_code P self' pw code network' detail.
Proof.
  intros HF. destruct (session_net_sel _ _ _ _ HS) as (n' & N'). unfold confirm_at. rewrite (proj1 (select_at self network) HI). cbn [bind]. fold n.
  apply (confirm_prefixes P _ _ _ _ _ _ _ _ _ _ _ _ HP (fixed_net HF) N').
Qed.
(** decrypt: any two lookups amount to one table with the address prefix of the
    first and the WIF prefix of the second *)
Lemma decrypt_at_eq a' w' s pw detail : found (self 2%nat) n = Some (w', a) -> found (self 3%nat) n = Some (w, a') ->
  decrypt_at P self s pw network detail = decrypt P self' s pw network' detail.
Proof.
  intros F2 F3. destruct (session_net_sel _ _ _ _ HS) as (n' & N').
  destruct (session_net_sel _ _ _ _ (proj1 (single_session n w a Hw Ha))) as (n1 & N1).
  rewrite <- (decrypt_prefixes P _ _ _ _ _ _ _ _ s pw detail HP N1 N').
  unfold decrypt_at, decrypt. rewrite (proj1 (select_at self network) HI). fold n.
  assert (C : chosen (Some n) n = n) by (destruct n; reflexivity). rewrite (select_single n w a (Some n) C). cbn [bind].
  unfold decrypt_no_ec_at, decrypt_no_ec, decrypt_ec_at, decrypt_ec, address_of, private_key_to_wif.
  cbn [single s_cryptocurrency]. rewrite (found_a _ _ _ _ F2), (found_w _ _ _ _ F3), single_a, single_w. reflexivity.
Qed.
End One.
(** create_new_encrypted_wif and confirm_code look up one entry: each call does
    what it does, undisturbed, in every object and network with that entry. *)
Theorem C74_create : forall P self network self' network' w a, prims_ok P ->
  let n := chosen network (s_network (self 0%nat)) in
  In n (s_networks (self 1%nat)) -> found (self 2%nat) n = Some (w, a) -> session self' network' w a ->
  forall random code t seed, create_at P random self code t seed network = create_new_encrypted_wif P random self' code t seed network'.
Proof.
  intros P self network self' network' w a HP n HI HF HS random code t seed. destruct (session_net_sel _ _ _ _ HS) as (n' & N').
  apply (create_at_eq P self network self' network' w a HP HI (ns_w _ _ _ _ _ N') (ns_a _ _ _ _ _ N') HS). exact HF.
Qed.
Theorem C74_confirm : forall P self network self' network' w a, prims_ok P ->
  let n := chosen network (s_network (self 0%nat)) in
  In n (s_networks (self 1%nat)) -> found (self 2%nat) n = Some (w, a) -> session self' network' w a ->
  forall pw code detail, confirm_at P self pw code network detail = confirm_code P self' pw code network' detail.
Proof.
  intros P self network self' network' w a HP n HI HF HS pw code detail. destruct (session_net_sel _ _ _ _ HS) as (n' & N').
  apply (confirm_at_eq P self network self' network' w a HP HI (ns_w _ _ _ _ _ N') (ns_a _ _ _ _ _ N') HS). exact HF.
Qed.
(** decrypt looks up the address prefix, then the WIF prefix, and the two may
    come from different tables: the call does what it does, undisturbed, in
    objects and networks with the address prefix of the first and the WIF prefix
    of the second, even if there never was such an entry. *)
Theorem C74_decrypt : forall P self network self' network' w a w' a', prims_ok P ->
  let n := chosen network (s_network (self 0%nat)) in
  In n (s_networks (self 1%nat)) -> found (self 2%nat) n = Some (w', a) -> found (self 3%nat) n = Some (w, a') -> session self' network' w a ->
  forall s pw detail, decrypt_at P self s pw network detail = decrypt P self' s pw network' detail.
Proof.
  intros P self network self' network' w a w' a' HP n HI F2 F3 HS s pw detail. destruct (session_net_sel _ _ _ _ HS) as (n' & N').
  exact (decrypt_at_eq P self network self' network' w a HP HI (ns_w _ _ _ _ _ N') (ns_a _ _ _ _ _ N') HS a' w' s pw detail F2 F3).
Qed.
(** So even then the key is the right one: it belongs to the address hash in the
    record, and to the address returned. *)
Theorem C74_decrypt_sound : forall P self network w a w' a' s pw d, prims_ok P ->
  let n := chosen network (s_network (self 0%nat)) in
  In n (s_networks (self 1%nat)) -> found (self 2%nat) n = Some (w', a) -> found (self 3%nat) n = Some (w, a') -> 0 <= w -> 0 <= a ->
  decrypt_at P self s pw network true = Ok (DDetail d) ->
  exists raw k c, base58_reads s raw /\ List.length raw = 43%nat /\ describes P w a c k d /\ address_hash P (d_address d) = slice 3 7 raw.
Proof.
  intros P self network w a w' a' s pw d HP n HI F2 F3 Hw Ha E. destruct (single_session n w a Hw Ha) as [HS _].
  rewrite (C74_decrypt P self network _ _ w a w' a' HP HI F2 F3 HS) in E. exact (C16_decrypt_sound P _ _ w a s pw d HP HS E).
Qed.
Lemma one_byte_prefix w : 0 <= w < 256 -> pre w = [z2b w].
Proof.
  intros H. assert (B : b2z (z2b w) = w) by (rewrite b2z_z2b; apply Z.mod_small; lia). unfold pre. rewrite <- B at 1. rewrite one_byte. reflexivity.
Qed.
Lemma decode_wif_one s w w' x x' : 0 <= w < 256 -> 0 <= w' < 256 -> decode_wif s w = Ok x -> decode_wif s w' = Ok x' -> w = w'.
Proof.
  intros Hw Hw' E E'. destruct (decode s base58_alphabet) as [raw|e] eqn:D.
  - destruct x as [[k t] c], x' as [[k' t'] c']. apply (decode_wif_raw s w raw ltac:(lia) D) in E. apply (decode_wif_raw s w' raw ltac:(lia) D) in E'.
    assert (F : exists r, raw = z2b w :: r). { destruct E as (_ & _ & [[_ ->]|[_ [b ->]]]); rewrite one_byte_prefix by exact Hw; eexists; reflexivity. }
    assert (F' : exists r, raw = z2b w' :: r). { destruct E' as (_ & _ & [[_ ->]|[_ [b ->]]]); rewrite one_byte_prefix by exact Hw'; eexists; reflexivity. }
    destruct F as [r F], F' as [r' F']. assert (B : z2b w = z2b w') by congruence. apply (f_equal b2z) in B.
    rewrite !b2z_z2b, !Z.mod_small in B by lia. exact B.
  - unfold decode_wif in E. rewrite D in E. discriminate.
Qed.
(** encrypt looks up the WIF prefix twice, then the address prefix.  For prefixes
    of one byte (all coins of the library, C39) a call does what it does,
    undisturbed, with the first or the second WIF prefix and that address prefix;
    and if it returns, the two WIF prefixes were the same. *)
Theorem C74_encrypt : forall P self network w1 a1 w2 a2 w3 a, prims_ok P ->
  let n := chosen network (s_network (self 0%nat)) in
  In n (s_networks (self 1%nat)) ->
  found (self 2%nat) n = Some (w1, a1) -> found (self 3%nat) n = Some (w2, a2) -> found (self 4%nat) n = Some (w3, a) ->
  0 <= w1 < 256 -> 0 <= w2 < 256 -> 0 <= a ->
  forall wif pw,
    ((forall self' network', session self' network' w1 a -> encrypt_at P self wif pw network = encrypt P self' wif pw network') \/
     (forall self' network', session self' network' w2 a -> encrypt_at P self wif pw network = encrypt P self' wif pw network')) /\
    forall e, encrypt_at P self wif pw network = Ok e -> w1 = w2.
Proof.
  intros P self network w1 a1 w2 a2 w3 a HP n HI F2 F3 F4 H1 H2 Ha wif pw.
  assert (C : chosen (Some n) n = n) by (destruct n; reflexivity).
  assert (X : forall w r, 0 <= w -> r = encrypt P (single n w a) wif pw (Some n) -> forall self' network', session self' network' w a -> r = encrypt P self' wif pw network').
  { intros w r Hw -> self' network' HS. apply (C31_only_prefixes P _ _ _ _ w a HP (proj1 (single_session n w a Hw Ha)) HS). }
  assert (E0 : encrypt_at P self wif pw network = let* r := decode_wif wif w1 in encrypt_at P self wif pw network).
  { destruct (decode_wif wif w1) as [x|e] eqn:D; [reflexivity|]. unfold encrypt_at. rewrite (proj1 (select_at self network) HI). fold n. cbn [bind].
    rewrite (get_wif_type_eq _ _ _ _ _ F2), D. reflexivity. }
  destruct (decode_wif wif w1) as [[[k1 t1] c1]|e1] eqn:D1.
  - clear E0. destruct (decode_wif wif w2) as [[[k2 t2] c2]|e2] eqn:D2.
    + assert (w2 = w1) by (symmetry; apply (decode_wif_one wif w1 w2 _ _ H1 H2 D1 D2)). subst w2. split; [|reflexivity]. left. apply X; [lia|].
      unfold encrypt_at, encrypt. rewrite (proj1 (select_at self network) HI). fold n. rewrite (select_single n w1 a (Some n) C). cbn [bind].
      unfold get_wif_type, wif_to_private_key, address_of. cbn [single s_cryptocurrency].
      rewrite (found_w _ _ _ _ F2), (found_w _ _ _ _ F3), (found_a _ _ _ _ F4), single_w, single_a. reflexivity.
    + assert (EA : encrypt_at P self wif pw network = Raise e2).
      { unfold encrypt_at. rewrite (proj1 (select_at self network) HI). fold n. cbn [bind]. rewrite (get_wif_type_eq _ _ _ _ _ F2), D1. cbn [bind].
        rewrite (wif_to_private_key_eq _ _ _ _ _ F3), D2. cbn [bind]. destruct (str_eqb t1 (str "wif")); reflexivity. }
      split; [|intros e; congruence]. right. apply X; [lia|]. rewrite EA. unfold encrypt. rewrite (select_single n w2 a (Some n) C). cbn [bind].
      unfold get_wif_type. cbn [single s_cryptocurrency]. rewrite single_w. cbn [bind]. rewrite D2. reflexivity.
  - cbn [bind] in E0. split; [|intros e; congruence]. left. apply X; [lia|]. rewrite E0. unfold encrypt. rewrite (select_single n w1 a (Some n) C). cbn [bind].
    unfold get_wif_type. cbn [single s_cryptocurrency]. rewrite single_w. cbn [bind]. rewrite D1. reflexivity.
Qed.
Definition never {A} (r : res A) : Prop := forall v, r <> Ok v.
Lemma never_not {A} (r : res A) v : never r -> r = Ok v -> False.
Proof. intros H. apply H. Qed.
Lemma never_bind {A B} (x : res B) (f : B -> res A) : (forall v, never (f v)) -> never (bind x f).
Proof. intros H. destruct x; [apply H|discriminate]. Qed.
Lemma never_bind_l {A B} (x : res B) (f : B -> res A) : never x -> never (bind x f).
Proof. intros H. destruct x as [v|]; [destruct (H v eq_refl)|discriminate]. Qed.
Lemma no_wif v n : found v n = None -> never (wif_prefix_of (s_cryptocurrency v) n).
Proof. intros H. unfold found in H. unfold wif_prefix_of. rewrite H. discriminate. Qed.
Lemma no_addr P v n k t : found v n = None -> never (address_of P v n k t).
Proof. intros H. unfold found in H. unfold address_of, address_prefix_of. rewrite H. discriminate. Qed.
Lemma no_pk P v n k t : found v n = None -> never (private_key_to_wif P k t (s_cryptocurrency v) n).
Proof. intros H. unfold private_key_to_wif. destruct (negb _); [discriminate|]. apply never_bind_l, no_wif, H. Qed.
Ltac never_step P self n M := match goal with
  | |- never (bind (address_of P _ n _ _) _) => first [apply never_bind_l, no_addr, M | apply never_bind; intros ?]
  | |- never (bind (private_key_to_wif P _ _ _ n) _) => first [apply never_bind_l, no_pk, M | apply never_bind; intros ?]
  | |- never (bind _ _) => apply never_bind; intros ?
  | |- never (raise_not_one_of _ _ _ _) => unfold raise_not_one_of
  | |- never (Raise _) => discriminate
  | |- never (if ?b then _ else _) => destruct b
  | |- never (match ?x with pair _ _ => _ end) => destruct x
  | |- never (let _ := _ in _) => cbv zeta
  end.
(** A call that returns found an entry at every lookup. *)
Theorem C74_entries : forall P self network, let n := chosen network (s_network (self 0%nat)) in
  (forall wif pw e, encrypt_at P self wif pw network = Ok e -> found (self 2%nat) n <> None /\ found (self 3%nat) n <> None /\ found (self 4%nat) n <> None) /\
  (forall random code t seed r, create_at P random self code t seed network = Ok r -> found (self 2%nat) n <> None) /\
  (forall pw code detail r, confirm_at P self pw code network detail = Ok r -> found (self 2%nat) n <> None) /\
  (forall s pw detail r, decrypt_at P self s pw network detail = Ok r -> found (self 2%nat) n <> None /\ found (self 3%nat) n <> None).
Proof.
  intros P self network n. destruct (in_dec (list_eq_dec N.eq_dec) n (s_networks (self 1%nat))) as [HI|HI].
  - pose proof (proj1 (select_at self network) HI) as S. fold n in S.
    assert (F : select_network (fixed (self 2%nat) n) (Some n) = Ok n).
    { assert (C : chosen (Some n) n = n) by (destruct n; reflexivity). rewrite (select_chosen (fixed (self 2%nat) n)); cbn [fixed s_network s_networks]; rewrite C; [reflexivity|left; reflexivity]. }
    split; [|split; [|split]].
    + intros wif pw e E. split; [|split]; intros M; revert E; apply never_not.
      * unfold encrypt_at. rewrite S. cbn [bind]. apply never_bind_l. unfold get_wif_type. apply never_bind_l, no_wif, M.
      * unfold encrypt_at. rewrite S. cbn [bind]. apply never_bind. intros t. apply never_bind_l.
        destruct (str_eqb t (str "wif")); (apply never_bind; intros ?); apply never_bind_l; unfold wif_to_private_key; apply never_bind_l, no_wif, M.
      * unfold encrypt_at. rewrite S. cbn [bind]. apply never_bind. intros t. apply never_bind. intros [[f sk] kt]. apply never_bind. intros pk. apply never_bind_l, no_addr, M.
    + intros random code t seed r E M. unfold create_at in E. rewrite S in E. cbn [bind] in E.
      destruct (cut_create P (fixed (self 2%nat) n) (fixed (self 2%nat) n) n M random code t seed (Some n) F F) as [X|(e & X & _)]; congruence.
    + intros pw code detail r E M. unfold confirm_at in E. rewrite S in E. cbn [bind] in E.
      destruct (cut_confirm P (fixed (self 2%nat) n) (fixed (self 2%nat) n) n M pw code (Some n) detail F F) as [X|(e & X & _)]; congruence.
    + intros s pw detail r E. split; intros M; revert E; apply never_not; unfold decrypt_at; rewrite S; cbn [bind];
        unfold decrypt_no_ec_at, decrypt_ec_at; repeat (never_step P self n M).
  - pose proof (proj2 (select_at self network) HI) as S. unfold encrypt_at, create_at, confirm_at, decrypt_at. rewrite S.
    split; [|split; [|split]]; intros; discriminate.
Qed.
(** If the entry is replaced between the two lookups of decrypt, the call
    returns the same key, with its WIF for the new network and its address for
    the old one. *)
Theorem C74_torn : forall P self network w a w2 a2 self' network' s pw d c k, prims_ok P ->
  let n := chosen network (s_network (self 0%nat)) in
  In n (s_networks (self 1%nat)) -> found (self 2%nat) n = Some (w, a) -> found (self 3%nat) n = Some (w2, a2) -> 0 <= w2 ->
  session self' network' w a -> decrypt P self' s pw network' true = Ok (DDetail d) -> describes P w a c k d ->
  exists d', decrypt_at P self s pw network true = Ok (DDetail d') /\ describes P w2 a c k d'.
Proof.
  intros P self network w a w2 a2 self' network' s pw d c k HP n HI F2 F3 Hw HS E G. destruct (session_net_sel _ _ _ _ HS) as (n' & N').
  destruct (single_session n w2 a Hw (ns_a _ _ _ _ _ N')) as [HS2 _].
  rewrite (C74_decrypt P self network _ _ w2 a w a2 HP HI F2 F3 HS2). exact (C47_same_address_prefix P _ _ w a _ _ w2 s pw d c k HP HS HS2 E G).
Qed.

(** ** The hypotheses are met *)
(** Bitcoin's mainnet entry is replaced by its testnet entry after read 2. *)
Definition replaced (j : nat) : bip38 :=
  if Nat.leb j 2 then btc
  else {| s_cryptocurrency := with_table coin_Bitcoin [(str "mainnet", (0xef, 0x6f))]; s_networks := s_networks btc; s_network := s_network btc; s_alphabet := s_alphabet btc |}.
Example C74_met : let n := chosen None (s_network (replaced 0)) in
  In n (s_networks (replaced 1)) /\ found (replaced 2) n = Some (0x80, 0) /\ found (replaced 3) n = Some (0xef, 0x6f) /\ found (replaced 4) n = Some (0xef, 0x6f) /\
  session btc None 0x80 0 /\ session btc (Some (str "testnet")) 0xef 0x6f /\
  ~ In (chosen (Some (str "custom")) (s_network (replaced 0))) (s_networks (replaced 1)).
Proof.
  intros n. split; [left; reflexivity|]. split; [reflexivity|]. split; [reflexivity|]. split; [reflexivity|]. split; [exact btc_session|]. split; [exact btc_testnet_session|].
  vm_compute. intuition discriminate.
Qed.
Example C74_torn_met : exists e d, decrypt_at toy replaced e (str "TestingOneTwoThree") None true = Ok (DDetail d) /\ describes toy 0xef 0 true (repeat x11 32) d.
Proof.
  destruct C16_example as (e & d & E & G). exists e.
  apply (C74_torn toy replaced None 0x80 0 0xef 0x6f btc None e _ d true (repeat x11 32) toy_ok); try reflexivity; trivial; [left; reflexivity|lia|exact btc_session].
Qed.
(** An encryption that returns although the WIF prefix changes before its last
    lookup *)
Definition moved (j : nat) : bip38 :=
  if Nat.leb j 3 then btc
  else {| s_cryptocurrency := with_table coin_Bitcoin [(str "mainnet", (0xef, 0))]; s_networks := s_networks btc; s_network := s_network btc; s_alphabet := s_alphabet btc |}.
Example C74_encrypt_met : exists s e, encrypt_at toy moved s (str "TestingOneTwoThree") None = Ok e.
Proof.
  destruct C12_example as (s & e & _ & E). exists s, e.
  assert (A := C74_encrypt toy moved None 0x80 0 0x80 0 0xef 0 toy_ok (or_introl eq_refl) eq_refl eq_refl eq_refl ltac:(lia) ltac:(lia) ltac:(lia) s (str "TestingOneTwoThree")).
  destruct A as [[A|A] _]; rewrite (A _ _ btc_session); exact E.
Qed.
