(** * Base58Facts: lemmas about Base58.v *)
From Coq Require Import Lia ZifyBool ZifyNat ZifyN.
From Verif Require Import Py Spec PyFacts Utils UtilsFacts Prims Base58.
Ltac Zify.zify_post_hook ::= Z.div_mod_to_equations.

(** ** Digit strings *)
Lemma digits_value_app B a b :
  digits_value B (a ++ b) = digits_value B a * B ^ zlen b + digits_value B b.
Proof.
  induction a as [|d a IH]; [cbn; lia|]. cbn [app digits_value]. rewrite IH, app_length.
  unfold zlen. rewrite Nat2Z.inj_add, Z.pow_add_r by lia. ring.
Qed.
Lemma digits_value_snoc B a d : digits_value B (a ++ [d]) = digits_value B a * B + d.
Proof. rewrite digits_value_app. cbn -[Z.mul Z.add]. lia. Qed.
Lemma digits_value_bound B ds : 0 < B -> Forall (fun d => 0 <= d < B) ds ->
  0 <= digits_value B ds < B ^ zlen ds.
Proof.
  intros HB. induction 1 as [|d ds Hd Hds IH]; [cbn; lia|].
  cbn [digits_value]. fold (zlen ds).
  replace (zlen (d :: ds)) with (zlen ds + 1) by (unfold zlen; cbn [List.length]; lia).
  pose proof (zlen_nonneg ds). rewrite Z.pow_add_r by lia.
  assert (0 < B ^ zlen ds) by (apply Z.pow_pos_nonneg; lia). nia.
Qed.
Lemma digits_value_inj B a b : 0 < B ->
  Forall (fun d => 0 <= d < B) a -> Forall (fun d => 0 <= d < B) b ->
  List.length a = List.length b -> digits_value B a = digits_value B b -> a = b.
Proof.
  intros HB Ha. revert b. induction Ha as [|x a Hx Ha IH]; intros [|y b] Hb L E; cbn in L; try lia; [reflexivity|].
  inversion Hb as [|? ? Hy Hb']; subst.
  cbn [digits_value] in E. assert (L' : List.length a = List.length b) by lia. rewrite L' in E.
  pose proof (digits_value_bound B a HB Ha) as Ba. pose proof (digits_value_bound B b HB Hb') as Bb.
  unfold zlen in *. rewrite L' in Ba.
  assert (P : 0 < B ^ Z.of_nat (List.length b)) by (apply Z.pow_pos_nonneg; lia).
  assert (x = y /\ digits_value B a = digits_value B b) as [-> E2].
  { apply (Z.div_mod_unique (B ^ Z.of_nat (List.length b))); try lia. }
  f_equal. apply IH; trivial.
Qed.
Lemma canonical_lower B d ds : 0 < B -> canonical B (d :: ds) -> B ^ zlen ds <= digits_value B (d :: ds).
Proof.
  intros HB [H Hd]. inversion H as [|? ? H1 H2]; subst. cbn [digits_value].
  pose proof (digits_value_bound B ds HB H2). unfold zlen in *.
  assert (0 < B ^ Z.of_nat (List.length ds)) by (apply Z.pow_pos_nonneg; lia). nia.
Qed.
Lemma pow_lt_exp B a b v : 1 < B -> B ^ a <= v -> v < B ^ b -> 0 <= b -> a < b.
Proof.
  intros HB H1 H2 Hb. destruct (Z.lt_ge_cases a b); [assumption|].
  assert (B ^ b <= B ^ a) by (apply Z.pow_le_mono_r; lia). lia.
Qed.
Lemma canonical_length B a b : 1 < B -> canonical B a -> canonical B b ->
  digits_value B a = digits_value B b -> List.length a = List.length b.
Proof.
  intros HB Ca Cb E.
  pose proof (digits_value_bound B a ltac:(lia) (proj1 Ca)) as Ba.
  pose proof (digits_value_bound B b ltac:(lia) (proj1 Cb)) as Bb.
  destruct a as [|x a], b as [|y b]; cbn [List.length]; try reflexivity.
  - pose proof (canonical_lower B y b ltac:(lia) Cb). cbn in E, Ba.
    assert (0 < B ^ zlen b) by (apply Z.pow_pos_nonneg; [lia|apply zlen_nonneg]). cbn [digits_value] in *. lia.
  - pose proof (canonical_lower B x a ltac:(lia) Ca). cbn in E, Bb.
    assert (0 < B ^ zlen a) by (apply Z.pow_pos_nonneg; [lia|apply zlen_nonneg]). cbn [digits_value] in *. lia.
  - pose proof (canonical_lower B x a ltac:(lia) Ca) as La.
    pose proof (canonical_lower B y b ltac:(lia) Cb) as Lb.
    replace (zlen (x :: a)) with (zlen a + 1) in Ba by (unfold zlen; cbn [List.length]; lia).
    replace (zlen (y :: b)) with (zlen b + 1) in Bb by (unfold zlen; cbn [List.length]; lia).
    pose proof (zlen_nonneg a). pose proof (zlen_nonneg b).
    assert (zlen a < zlen b + 1) by (eapply (pow_lt_exp B); [lia|exact La| |]; lia).
    assert (zlen b < zlen a + 1) by (eapply (pow_lt_exp B); [lia|exact Lb| |]; lia).
    unfold zlen in *. lia.
Qed.
Lemma canonical_unique B a b : 1 < B -> canonical B a -> canonical B b ->
  digits_value B a = digits_value B b -> a = b.
Proof.
  intros HB Ca Cb E. apply (digits_value_inj B); try lia; try apply Ca; try apply Cb.
  apply (canonical_length B); assumption.
Qed.
Lemma canonical_snoc B ds d : 0 <= d < B -> canonical B ds -> ds <> [] -> canonical B (ds ++ [d]).
Proof.
  intros Hd [F H] N. split.
  - apply Forall_app. split; [exact F|]. constructor; [exact Hd|constructor].
  - destruct ds; [congruence|exact H].
Qed.
Lemma canonical_len_bounds B ds n : 1 < B -> canonical B ds -> 0 <= n ->
  B ^ n <= digits_value B ds < B ^ (n + 1) -> zlen ds = n + 1.
Proof.
  intros HB C Hn [H1 H2].
  pose proof (digits_value_bound B ds ltac:(lia) (proj1 C)) as Bd.
  destruct ds as [|d ds].
  { cbn in H1. assert (0 < B ^ n) by (apply Z.pow_pos_nonneg; lia). lia. }
  pose proof (canonical_lower B d ds ltac:(lia) C) as L.
  replace (zlen (d :: ds)) with (zlen ds + 1) in * by (unfold zlen; cbn [List.length]; lia).
  pose proof (zlen_nonneg ds).
  assert (n < zlen ds + 1) by (eapply (pow_lt_exp B); [lia|exact H1| |]; lia).
  assert (zlen ds < n + 1) by (eapply (pow_lt_exp B); [lia|exact L| |]; lia). lia.
Qed.
Lemma digits_prefix B ds k : 0 < B -> Forall (fun d => 0 <= d < B) ds ->
  digits_value B (firstn k ds) = digits_value B ds / B ^ zlen (skipn k ds).
Proof.
  intros HB F. rewrite <- (firstn_skipn k ds) at 2. rewrite digits_value_app.
  assert (F2 : Forall (fun d => 0 <= d < B) (skipn k ds)).
  { rewrite <- (firstn_skipn k ds) in F. apply Forall_app in F. apply F. }
  pose proof (digits_value_bound B _ HB F2) as Bd.
  rewrite Z.div_add_l by lia. rewrite Z.div_small by exact Bd. lia.
Qed.

(** Bytes as digits. *)
Lemma be2z_digits l : be2z l = digits_value 256 (List.map b2z l).
Proof. rewrite <- be_value_be2z. reflexivity. Qed.
Lemma map_b2z_range l : Forall (fun d => 0 <= d < 256) (List.map b2z l).
Proof. apply Forall_forall. intros d H. apply in_map_iff in H. destruct H as [b [<- _]]. apply b2z_range. Qed.
Lemma canonical_bytes l : strip_zeros l = l -> canonical 256 (List.map b2z l).
Proof.
  intros H. split; [apply map_b2z_range|]. destruct l as [|b l]; [exact I|]. cbn [List.map].
  rewrite b2z_0. eapply strip_zeros_first; exact H.
Qed.
Lemma map_b2z_inj a b : List.map b2z a = List.map b2z b -> a = b.
Proof.
  revert b; induction a as [|x a IH]; intros [|y b] H; try discriminate; [reflexivity|].
  cbn in H. injection H as H1 H2. f_equal; [apply b2z_inj; exact H1|apply IH; exact H2].
Qed.
Lemma stripped_unique a b : strip_zeros a = a -> strip_zeros b = b -> be2z a = be2z b -> a = b.
Proof.
  intros Ha Hb E. apply map_b2z_inj. apply (canonical_unique 256); try lia;
  try (apply canonical_bytes; assumption). rewrite <- !be2z_digits. exact E.
Qed.
Lemma strip_idem l : strip_zeros (strip_zeros l) = strip_zeros l.
Proof.
  destruct (strip_zeros l) as [|b r] eqn:E; [reflexivity|].
  apply strip_zeros_id. eapply strip_zeros_first; exact E.
Qed.
Lemma strip_repeat k l : strip_zeros (repeat x00 k ++ l) = strip_zeros l.
Proof. induction k; [reflexivity|]. cbn. exact IHk. Qed.

(** ** string_to_int *)
Lemma string_to_int_loop_spec r : forall i val, 0 <= i ->
  string_to_int_loop i r val = val + 256 ^ i * be2z (rev r).
Proof.
  induction r as [|c r IH]; intros i val Hi; cbn [string_to_int_loop rev]; [cbn; lia|].
  rewrite IH by lia. rewrite be2z_snoc. rewrite Z.pow_add_r by lia. ring.
Qed.
Lemma string_to_int_be2z d : string_to_int d = be2z d.
Proof. unfold string_to_int. rewrite string_to_int_loop_spec by lia. rewrite rev_involutive. lia. Qed.

(** ** encode *)
Section Alphabet.
  Variable A : pystr.
  Hypothesis HA : alphabet_ok A.
  Let L := zlen A.

  Lemma L2 : 2 <= L.
  Proof. destruct HA as [H _]. unfold L, zlen. lia. Qed.

  Lemma char_at_letter d : 0 <= d < L -> char_at A d = Ok (letter A d).
  Proof.
    intros H. unfold char_at, letter.
    destruct (nth_error A (Z.to_nat d)) eqn:E.
    - rewrite (nth_error_nth _ _ _ E). reflexivity.
    - apply nth_error_None in E. unfold L, zlen in H. lia.
  Qed.

  Lemma encode_loop_spec fuel : forall val enc, 0 <= val < 2 ^ Z.of_nat fuel ->
    exists ds, canonical L ds /\ digits_value L ds = val /\
               encode_loop fuel A val enc = Ok (List.map (letter A) ds ++ enc).
  Proof.
    pose proof L2 as HL.
    induction fuel as [|fuel IH]; intros val enc Hv.
    - assert (val = 0) by (cbn in Hv; lia). subst val. exists []. repeat split; try constructor.
      cbn [encode_loop]. fold L. destruct (Z.leb_spec L 0); [lia|]. reflexivity.
    - cbn [encode_loop]. fold L. destruct (Z.leb_spec L val).
      + destruct (Z.eqb_spec L 0); [lia|].
        assert (Hm : 0 <= val mod L < L) by (apply Z.mod_pos_bound; lia).
        rewrite char_at_letter by exact Hm. cbn [bind].
        destruct (IH (val / L) (letter A (val mod L) :: enc)) as [ds [C [V E]]].
        { split; [apply Z.div_pos; lia|]. apply Z.div_lt_upper_bound; [lia|].
          rewrite Nat2Z.inj_succ, Z.pow_succ_r in Hv by lia.
          assert (0 < 2 ^ Z.of_nat fuel) by (apply Z.pow_pos_nonneg; lia). nia. }
        exists (ds ++ [val mod L]). repeat split.
        * apply Forall_app. split; [apply C|]. constructor; [exact Hm|constructor].
        * destruct ds as [|d ds]; [|apply C]. cbn [digits_value] in V.
          assert (1 <= val / L) by (apply Z.div_le_lower_bound; lia). lia.
        * rewrite digits_value_snoc, V. rewrite (Z.div_mod val L) at 3 by lia. ring.
        * rewrite E, map_app, <- app_assoc. reflexivity.
      + destruct (Z.eqb_spec val 0) as [->|Hnz]; cbn [negb].
        * exists []. repeat split; constructor.
        * rewrite char_at_letter by lia. cbn [bind]. exists [val]. repeat split.
          -- constructor; [lia|constructor].
          -- exact Hnz.
          -- cbn. lia.
  Qed.

  Lemma fuel_ok v : 0 <= v -> v < 2 ^ Z.of_nat (S (Z.to_nat (Z.log2 v))).
  Proof.
    intros H. rewrite Nat2Z.inj_succ, Z2Nat.id by apply Z.log2_nonneg.
    destruct (Z.eq_dec v 0) as [->|]; [cbn; lia|]. apply Z.log2_spec. lia.
  Qed.

  Lemma leading_zeros d :
    d = repeat x00 (List.length d - List.length (lstrip0 d)) ++ strip_zeros d.
  Proof.
    rewrite lstrip0_strip. destruct (strip_zeros_spec d) as [k E].
    assert (L' : List.length d = (k + List.length (strip_zeros d))%nat).
    { rewrite E at 1. rewrite app_length, repeat_length. reflexivity. }
    replace (List.length d - List.length (strip_zeros d))%nat with k by lia. exact E.
  Qed.

  Lemma encode_text d : exists s, encode d A = Ok s /\ base_text A d s.
  Proof.
    unfold encode. rewrite string_to_int_be2z.
    pose proof (be2z_bound d) as Bd.
    destruct (encode_loop_spec (S (Z.to_nat (Z.log2 (be2z d)))) (be2z d) []) as [ds [C [V E]]].
    { split; [lia|]. apply fuel_ok. lia. }
    rewrite E. cbn [bind]. rewrite char_at_letter by (pose proof L2; lia). cbn [bind].
    eexists. split; [reflexivity|].
    exists (List.length d - List.length (lstrip0 d))%nat, (strip_zeros d), ds.
    split; [apply leading_zeros|]. split; [apply strip_idem|]. split; [exact C|].
    split; [|rewrite app_nil_r; reflexivity].
    unfold L in V. rewrite V, be_value_be2z, be2z_strip. reflexivity.
  Qed.

  Lemma repeat_app_inj k k' (a b : bytes) : strip_zeros a = a -> strip_zeros b = b ->
    repeat x00 k ++ a = repeat x00 k' ++ b -> k = k' /\ a = b.
  Proof.
    intros Ha Hb E.
    assert (E2 : a = b). { rewrite <- Ha, <- Hb, <- (strip_repeat k a), E. apply strip_repeat. }
    split; [|exact E2]. subst b. apply app_inv_tail in E.
    apply (f_equal (@List.length byte)) in E. rewrite !repeat_length in E. exact E.
  Qed.

  Lemma base_text_fun d s s' : base_text A d s -> base_text A d s' -> s = s'.
  Proof.
    intros [k [b [ds [E1 [S1 [C1 [V1 ->]]]]]]] [k' [b' [ds' [E2 [S2 [C2 [V2 ->]]]]]]].
    rewrite E1 in E2. destruct (repeat_app_inj _ _ _ _ S1 S2 E2) as [-> ->].
    assert (ds = ds') as ->; [|reflexivity].
    apply (canonical_unique (zlen A)); trivial; [pose proof L2; unfold L in *; lia|congruence].
  Qed.

  Lemma encode_iff d s : encode d A = Ok s <-> base_text A d s.
  Proof.
    destruct (encode_text d) as [s' [E T]]. rewrite E. split.
    - intros H; injection H as <-. exact T.
    - intros H. f_equal. eapply base_text_fun; eassumption.
  Qed.

  (** letters *)
  Lemma letter_in d : 0 <= d < L -> In (letter A d) A.
  Proof. intros H. unfold letter. apply nth_In. unfold L, zlen in H. lia. Qed.
  Lemma letter_inj a b : 0 <= a < L -> 0 <= b < L -> letter A a = letter A b -> a = b.
  Proof.
    intros Ha Hb E. destruct HA as [_ [ND _]]. unfold letter in E.
    assert (Z.to_nat a = Z.to_nat b); [|lia].
    apply (proj1 (NoDup_nth A 0%N) ND); unfold L, zlen in *; (exact E || lia).
  Qed.
  Lemma in_letter c : In c A -> exists d, 0 <= d < L /\ letter A d = c.
  Proof.
    intros H. apply (In_nth _ _ 0%N) in H. destruct H as [n [Hn E]].
    exists (Z.of_nat n). unfold letter, L, zlen. rewrite Nat2Z.id. split; [lia|exact E].
  Qed.

  Lemma A_ascii : is_ascii A. Proof. apply HA. Qed.

  Lemma text_over d s : base_text A d s -> over A s.
  Proof.
    intros [k [b [ds [_ [_ [C [_ ->]]]]]]]. apply Forall_app. split; apply Forall_forall; intros c Hc.
    - apply repeat_spec in Hc. subst c. apply letter_in. pose proof L2. lia.
    - apply in_map_iff in Hc. destruct Hc as [x [<- Hx]]. apply letter_in.
      destruct C as [F _]. rewrite Forall_forall in F. apply F; exact Hx.
  Qed.
  Lemma over_ascii s : over A s -> is_ascii s.
  Proof.
    intros H. pose proof A_ascii as HA'. unfold is_ascii, over in *. rewrite Forall_forall in *. auto.
  Qed.

  (** ** decode *)
  (** The digit the code reads for a character: its index, or -1. *)
  Definition digit (c : N) : Z := bytes_find (List.map n2b A) (n2b c).

  Lemma n2b_inj a b : (a < 256)%N -> (b < 256)%N -> n2b a = n2b b -> a = b.
  Proof. intros Ha Hb E. rewrite <- (n2b_spec a Ha), <- (n2b_spec b Hb), E. reflexivity. Qed.

  Lemma find_from_spec l : forall i c, Forall (fun c => (c < 128)%N) l -> (c < 128)%N -> 0 <= i ->
    (exists j, (j < List.length l)%nat /\ nth j l 0%N = c /\
               (forall m, (m < j)%nat -> nth m l 0%N <> c) /\
               find_from i (n2b c) (List.map n2b l) = i + Z.of_nat j)
    \/ (~ In c l /\ find_from i (n2b c) (List.map n2b l) = -1).
  Proof.
    induction l as [|x l IH]; intros i c F Hc Hi; cbn [List.map find_from].
    - right. split; [intros []|reflexivity].
    - inversion F as [|? ? Fx Fl]; subst. destruct (Byte.eqb (n2b x) (n2b c)) eqn:E.
      + apply byte_eqb_spec, n2b_inj in E; try lia. subst x. left. exists 0%nat. cbn. repeat split; lia.
      + assert (Nx : x <> c) by (intros ->; rewrite byte_eqb_refl in E; discriminate).
        destruct (IH (i + 1) c Fl Hc ltac:(lia)) as [[j [H1 [H2 [H3 H4]]]]|[H1 H2]].
        * left. exists (S j). cbn [List.length nth]. repeat split; try lia; try exact H2.
          intros [|m] Hm; cbn [nth]; [exact Nx|apply H3; lia].
        * right. split; [|exact H2]. intros [H|H]; [congruence|contradiction].
  Qed.

  Lemma digit_letter d : 0 <= d < L -> digit (letter A d) = d.
  Proof.
    intros H. pose proof A_ascii as HAs.
    assert (Hin : In (letter A d) A) by (apply letter_in; exact H).
    assert (Hc : (letter A d < 128)%N) by (unfold is_ascii in HAs; rewrite Forall_forall in HAs; auto).
    unfold digit, bytes_find.
    destruct (find_from_spec A 0 (letter A d) HAs Hc ltac:(lia)) as [[j [H1 [H2 [_ ->]]]]|[H1 _]]; [|contradiction].
    rewrite Z.add_0_l. apply letter_inj; [unfold L, zlen; lia|exact H|].
    rewrite <- H2. unfold letter. rewrite Nat2Z.id. reflexivity.
  Qed.
  Lemma digit_notin c : (c < 128)%N -> ~ In c A -> digit c = -1.
  Proof.
    intros Hc H. unfold digit, bytes_find.
    destruct (find_from_spec A 0 c A_ascii Hc ltac:(lia)) as [[j [H1 [H2 _]]]|[_ ->]]; [|reflexivity].
    exfalso. apply H. rewrite <- H2. apply nth_In. exact H1.
  Qed.
  Lemma digit_range c : (c < 128)%N -> -1 <= digit c < L.
  Proof.
    intros Hc. pose proof L2. destruct (in_dec N.eq_dec c A) as [H0|H0].
    - destruct (in_letter c H0) as [d [Hd <-]]. rewrite digit_letter by exact Hd. lia.
    - rewrite digit_notin by assumption. lia.
  Qed.

  (** running value and number of zero prefixes *)
  Fixpoint zero_prefixes (val : Z) (ds : list Z) : nat :=
    match ds with
    | [] => 0%nat
    | d :: r => let v := val * L + d in Nat.add (if v =? 0 then 1%nat else 0%nat) (zero_prefixes v r)
    end.

  Lemma decode_loop_spec s : is_ascii s -> forall val prefix,
    decode_loop A (List.map n2b s) val prefix =
    Ok (val * L ^ zlen s + digits_value L (List.map digit s),
        (prefix + zero_prefixes val (List.map digit s))%nat).
  Proof.
    induction 1 as [|c s Hc Hs IH]; intros val prefix; cbn [List.map decode_loop zero_prefixes digits_value].
    - f_equal. f_equal; [cbn|]; lia.
    - rewrite (utf8_encode_ascii A A_ascii). cbn [bind]. fold L. fold (digit c).
      rewrite IH. f_equal. f_equal.
      + rewrite map_length. unfold zlen. cbn [List.length]. rewrite Nat2Z.inj_succ, Z.pow_succ_r by lia. ring.
      + destruct (val * L + digit c =? 0); lia.
  Qed.

  Lemma bytes_loop_spec fuel : forall val dec, val < 2 ^ Z.of_nat fuel ->
    exists bs, strip_zeros bs = bs /\ be2z bs = Z.max 0 val /\
               bytes_loop fuel val dec = Ok (dec ++ rev bs).
  Proof.
    induction fuel as [|fuel IH]; intros val dec Hv.
    - exists []. repeat split; [cbn in *; lia|]. cbn [bytes_loop]. destruct (Z.ltb_spec 0 val); [cbn in Hv; lia|].
      cbn. rewrite app_nil_r. reflexivity.
    - cbn [bytes_loop]. destruct (Z.ltb_spec 0 val).
      + destruct (IH (val / 256) (dec ++ [z2b (val mod 256)])) as [bs [S1 [V1 E1]]].
        { apply Z.div_lt_upper_bound; [lia|]. rewrite Nat2Z.inj_succ, Z.pow_succ_r in Hv by lia.
          assert (0 < 2 ^ Z.of_nat fuel) by (apply Z.pow_pos_nonneg; lia). lia. }
        exists (bs ++ [z2b (val mod 256)]). repeat split.
        * destruct bs as [|b bs].
          -- cbn [app]. rewrite strip_zeros_id; [reflexivity|]. intros E. apply b2z_0 in E.
             rewrite b2z_z2b, Z.mod_mod in E by lia. cbn in V1. lia.
          -- cbn [app]. apply strip_zeros_id. eapply strip_zeros_first; exact S1.
        * rewrite be2z_snoc, V1, b2z_z2b, Z.mod_mod by lia. lia.
        * rewrite E1. rewrite rev_app_distr. cbn [rev app]. rewrite <- app_assoc. reflexivity.
      + exists []. repeat split; [cbn; lia|]. cbn. rewrite app_nil_r. reflexivity.
  Qed.

  Lemma fuel_ok' v : v < 2 ^ Z.of_nat (S (Z.to_nat (Z.log2 v))).
  Proof.
    destruct (Z.lt_ge_cases v 0) as [H|H]; [|apply fuel_ok; lia].
    apply Z.lt_le_trans with 0; [exact H|]. apply Z.pow_nonneg; lia.
  Qed.

  (** What decode does on every ASCII string. *)
  Lemma decode_ascii s : is_ascii s ->
    exists bs, strip_zeros bs = bs /\
      be2z bs = Z.max 0 (digits_value L (List.map digit s)) /\
      decode s A = Ok (repeat x00 (zero_prefixes 0 (List.map digit s)) ++ bs).
  Proof.
    intros H. unfold decode. rewrite ascii_encode_ok by exact H. cbn [bind].
    rewrite decode_loop_spec by exact H. cbn [bind].
    rewrite Z.mul_0_l, !Z.add_0_l.
    destruct (bytes_loop_spec _ _ [] (fuel_ok' (digits_value L (List.map digit s)))) as [bs [S1 [V1 E1]]].
    rewrite E1. exists bs. repeat split; trivial. cbn [bind app].
    rewrite rev_app_distr, rev_involutive. f_equal. f_equal.
    clear. cbn [Nat.add]. induction (zero_prefixes 0 (List.map digit s)) as [|n IH]; [reflexivity|].
    cbn [repeat rev]. rewrite IH. clear. induction n; [reflexivity|]. cbn. rewrite IHn. reflexivity.
  Qed.
  Lemma decode_non_ascii s : ~ is_ascii s -> decode s A = Raise (Builtin UnicodeEncodeError).
  Proof. intros H. unfold decode. rewrite ascii_encode_err by exact H. reflexivity. Qed.

  Lemma zero_prefixes_pos ds : forall val, 0 < val -> Forall (fun d => 0 <= d < L) ds ->
    zero_prefixes val ds = 0%nat.
  Proof.
    pose proof L2. induction ds as [|d ds IH]; intros val Hv F; [reflexivity|].
    inversion F as [|? ? F1 F2]; subst. cbn [zero_prefixes].
    destruct (Z.eqb_spec (val * L + d) 0); [nia|]. rewrite IH; [reflexivity|nia|exact F2].
  Qed.
  Lemma zero_prefixes_lead k ds : canonical L ds ->
    zero_prefixes 0 (repeat 0 k ++ ds) = k.
  Proof.
    intros [F C]. induction k as [|k IH]; cbn [repeat app zero_prefixes].
    - destruct ds as [|d ds]; [reflexivity|]. inversion F as [|? ? F1 F2]; subst. cbn [zero_prefixes].
      destruct (Z.eqb_spec (0 * L + d) 0); [lia|]. rewrite zero_prefixes_pos; [reflexivity|lia|exact F2].
    - change (0 * L + 0 =? 0) with true. cbn [Nat.add]. rewrite Z.mul_0_l, Z.add_0_l. f_equal. exact IH.
  Qed.
  Lemma digits_value_lead B k ds : digits_value B (repeat 0 k ++ ds) = digits_value B ds.
  Proof. induction k; [reflexivity|]. cbn [repeat app digits_value]. lia. Qed.

  Lemma map_digit_letter ds : Forall (fun d => 0 <= d < L) ds ->
    List.map digit (List.map (letter A) ds) = ds.
  Proof.
    induction 1 as [|d ds Hd Hds IH]; [reflexivity|]. cbn [List.map]. rewrite digit_letter, IH by exact Hd. reflexivity.
  Qed.
  Lemma map_digit_repeat k : List.map digit (repeat (letter A 0) k) = repeat 0 k.
  Proof.
    pose proof L2. induction k; [reflexivity|]. cbn [repeat List.map].
    rewrite digit_letter by lia. congruence.
  Qed.

  Lemma over_digits s : over A s -> exists ds, Forall (fun d => 0 <= d < L) ds /\ s = List.map (letter A) ds.
  Proof.
    induction 1 as [|c s Hc Hs [ds [F ->]]]; [exists []; split; [constructor|reflexivity]|].
    destruct (in_letter c Hc) as [d [Hd <-]]. exists (d :: ds). split; [constructor; assumption|reflexivity].
  Qed.
  Lemma split_zero_digits ds : Forall (fun d => 0 <= d < L) ds ->
    exists k es, ds = repeat 0 k ++ es /\ canonical L es.
  Proof.
    induction 1 as [|d ds Hd Hds [k [es [-> C]]]]; [exists 0%nat, []; split; [reflexivity|split; [constructor|exact I]]|].
    destruct (Z.eq_dec d 0) as [->|Hn].
    - exists (S k), es. split; [reflexivity|exact C].
    - exists 0%nat, (d :: repeat 0 k ++ es). split; [reflexivity|]. split; [constructor; assumption|exact Hn].
  Qed.

  Lemma decode_text d s : base_text A d s -> decode s A = Ok d.
  Proof.
    intros T. pose proof (over_ascii _ (text_over _ _ T)) as Has.
    destruct T as [k [b [ds [-> [S1 [C [V ->]]]]]]].
    destruct (decode_ascii _ Has) as [bs [S2 [V2 E]]]. rewrite E. clear E.
    rewrite map_app, map_digit_repeat, map_digit_letter in * by apply C.
    rewrite zero_prefixes_lead by exact C. f_equal. f_equal.
    apply stripped_unique; trivial. rewrite V2, digits_value_lead.
    fold L in V. rewrite V, be_value_be2z. pose proof (be2z_bound b). lia.
  Qed.

  Lemma over_text s : over A s -> exists d, base_text A d s.
  Proof.
    intros H. destruct (over_digits s H) as [ds [F ->]].
    destruct (split_zero_digits ds F) as [k [es [-> C]]].
    pose proof L2 as HL2.
    pose proof (digits_value_bound L es ltac:(lia) (proj1 C)) as Bd.
    destruct (bytes_loop_spec _ _ [] (fuel_ok' (digits_value L es))) as [bs [S1 [V1 _]]].
    exists (repeat x00 k ++ bs), k, bs, es. repeat split; trivial; try apply C.
    - rewrite be_value_be2z, V1. unfold L in *. lia.
    - rewrite map_app. f_equal. clear. induction k; [reflexivity|]. cbn. congruence.
  Qed.

  Lemma decode_iff s d : over A s -> (decode s A = Ok d <-> base_text A d s).
  Proof.
    intros H. destruct (over_text s H) as [d' T]. rewrite (decode_text _ _ T). split.
    - intros E; injection E as <-. exact T.
    - intros T'. pose proof (decode_text _ _ T) as E1. rewrite (decode_text _ _ T') in E1. congruence.
  Qed.

  Lemma decode_encode d s : encode d A = Ok s -> decode s A = Ok d.
  Proof. intros H. apply decode_text. apply encode_iff. exact H. Qed.
  Lemma encode_decode s : over A s -> exists d, decode s A = Ok d /\ encode d A = Ok s.
  Proof.
    intros H. destruct (over_text s H) as [d T]. exists d.
    split; [apply decode_text; exact T|apply encode_iff; exact T].
  Qed.
End Alphabet.
