(** * PropAlphabet: property C67, which alphabets libs/base58.py works with *)
From Coq Require Import Lia ZifyBool ZifyNat ZifyN.
From Verif Require Import Py Prims Spec PyFacts Base58 Base58Facts SpecReads ReadFacts.

(** ** Writing, with any alphabet of two letters or more *)
Section Letters.
  Variable A : pystr.
  Hypothesis H2 : (2 <= List.length A)%nat.

  Lemma loop_text fuel : forall val enc, 0 <= val < 2 ^ Z.of_nat fuel ->
    exists ds, canonical (zlen A) ds /\ digits_value (zlen A) ds = val /\
               encode_loop fuel A val enc = Ok (List.map (letter A) ds ++ enc).
  Proof using H2.
    assert (HL : 2 <= zlen A) by (unfold zlen; lia).
    induction fuel as [|fuel IH]; intros val enc Hv.
    - assert (val = 0) by (cbn in Hv; lia). subst val. exists []. repeat split; try constructor.
      cbn [encode_loop]. destruct (Z.leb_spec (zlen A) 0); [lia|]. reflexivity.
    - cbn [encode_loop]. destruct (Z.leb_spec (zlen A) val).
      + destruct (Z.eqb_spec (zlen A) 0); [lia|].
        assert (Hm : 0 <= val mod zlen A < zlen A) by (apply Z.mod_pos_bound; lia).
        rewrite char_at_letter by exact Hm. cbn [bind].
        destruct (IH (val / zlen A) (letter A (val mod zlen A) :: enc)) as [ds [C [V E]]].
        { split; [apply Z.div_pos; lia|]. apply Z.div_lt_upper_bound; [lia|].
          rewrite Nat2Z.inj_succ, Z.pow_succ_r in Hv by lia.
          assert (0 < 2 ^ Z.of_nat fuel) by (apply Z.pow_pos_nonneg; lia). nia. }
        exists (ds ++ [val mod zlen A]). repeat split.
        * apply Forall_app. split; [apply C|]. constructor; [exact Hm|constructor].
        * destruct ds as [|d ds]; [|apply C]. cbn [digits_value] in V.
          assert (1 <= val / zlen A) by (apply Z.div_le_lower_bound; lia). lia.
        * rewrite digits_value_snoc, V. rewrite (Z.div_mod val (zlen A)) at 3 by lia. ring.
        * rewrite E, map_app, <- app_assoc. reflexivity.
      + destruct (Z.eqb_spec val 0) as [->|Hnz]; cbn [negb].
        * exists []. repeat split; constructor.
        * rewrite char_at_letter by lia. cbn [bind]. exists [val]. repeat split.
          -- constructor; [lia|constructor].
          -- exact Hnz.
          -- cbn. lia.
  Qed.

  Lemma text_exists d : exists s, encode d A = Ok s /\ base_text A d s.
  Proof using H2.
    unfold encode. rewrite string_to_int_be2z. pose proof (be2z_bound d) as Bd.
    destruct (loop_text (S (Z.to_nat (Z.log2 (be2z d)))) (be2z d) []) as [ds [C [V E]]].
    { split; [lia|]. apply (fuel_ok A). lia. }
    rewrite E. cbn [bind]. rewrite char_at_letter by (unfold zlen; lia). cbn [bind].
    eexists. split; [reflexivity|].
    exists (List.length d - List.length (lstrip0 d))%nat, (strip_zeros d), ds.
    split; [apply (leading_zeros A)|]. split; [apply strip_idem|]. split; [exact C|].
    split; [|rewrite app_nil_r; reflexivity].
    rewrite V, be_value_be2z, be2z_strip. reflexivity.
  Qed.
  Lemma text_unique d s s' : base_text A d s -> base_text A d s' -> s = s'.
  Proof using H2.
    intros [k [b [ds [E1 [S1 [C1 [V1 ->]]]]]]] [k' [b' [ds' [E2 [S2 [C2 [V2 ->]]]]]]].
    rewrite E1 in E2. destruct (repeat_app_inj _ _ _ _ S1 S2 E2) as [-> ->].
    assert (ds = ds') as ->; [|reflexivity].
    apply (canonical_unique (zlen A)); trivial; [unfold zlen; lia|congruence].
  Qed.
End Letters.

(** ** Reading, with any ASCII alphabet *)
Section Ascii.
  Variable A : pystr.
  Hypothesis HA : is_ascii A.
  Lemma find_position c : (c < 128)%N -> forall l i, Forall (fun c => (c < 128)%N) l ->
    find_from i (n2b c) (List.map n2b l) = match position c l with Some j => i + Z.of_nat j | None => -1 end.
  Proof using.
    intros Hc. induction l as [|x l IH]; intros i F; [reflexivity|]. inversion F as [|? ? Fx Fl]; subst.
    cbn [List.map find_from position]. destruct (N.eqb_spec c x) as [->|Nx].
    - rewrite byte_eqb_refl. lia.
    - assert (E : Byte.eqb (n2b x) (n2b c) = false).
      { destruct (Byte.eqb (n2b x) (n2b c)) eqn:E; [|reflexivity]. apply byte_eqb_spec, n2b_inj in E; lia. }
      rewrite E, IH by exact Fl. destruct (position c l); cbn [option_map]; lia.
  Qed.
  Lemma digit_position c : (c < 128)%N -> digit A c = digit_of A c.
  Proof using HA.
    intros Hc. unfold digit, bytes_find, digit_of. rewrite (find_position c Hc A 0 HA). destruct (position c A); lia.
  Qed.
  Lemma loop_value s : is_ascii s -> forall val prefix,
    decode_loop A (List.map n2b s) val prefix =
    Ok (val * zlen A ^ zlen s + digits_value (zlen A) (List.map (digit_of A) s),
        (prefix + zero_prefixes A val (List.map (digit_of A) s))%nat).
  Proof using HA.
    induction 1 as [|c s Hc Hs IH]; intros val prefix; cbn [List.map decode_loop zero_prefixes digits_value].
    - f_equal. f_equal; [cbn|]; lia.
    - rewrite (utf8_encode_ascii A HA). cbn [bind]. fold (digit A c). rewrite (digit_position c Hc).
      rewrite IH. f_equal. f_equal.
      + rewrite map_length. unfold zlen. cbn [List.length]. rewrite Nat2Z.inj_succ, Z.pow_succ_r by lia. ring.
      + destruct (val * zlen A + digit_of A c =? 0); lia.
  Qed.
  Lemma rev_zeros k : rev (repeat x00 k) = repeat x00 k.
  Proof using.
    clear. induction k as [|n IH]; [reflexivity|]. cbn [repeat rev]. rewrite IH. clear.
    induction n; [reflexivity|]. cbn. rewrite IHn. reflexivity.
  Qed.
  Lemma reading s : is_ascii s -> exists bs, strip_zeros bs = bs /\
    be2z bs = Z.max 0 (digits_value (zlen A) (List.map (digit_of A) s)) /\
    decode s A = Ok (repeat x00 (zero_prefix_count (zlen A) (List.map (digit_of A) s)) ++ bs).
  Proof using HA.
    intros H. unfold decode. rewrite ascii_encode_ok by exact H. cbn [bind].
    rewrite loop_value by exact H. cbn [bind]. rewrite Z.mul_0_l, !Z.add_0_l.
    destruct (bytes_loop_spec A _ _ [] (fuel_ok' A (digits_value (zlen A) (List.map (digit_of A) s)))) as [bs [S1 [V1 E1]]].
    rewrite E1. exists bs. repeat split; trivial. cbn [bind app].
    rewrite rev_app_distr, rev_involutive, rev_zeros, zero_prefix_count_eq. reflexivity.
  Qed.
End Ascii.

(** ** C67 *)
(** Any two letters or more will do for writing, repeated and non-ASCII ones included, *)
Theorem C67_encode_any_alphabet : forall A d s, (2 <= List.length A)%nat -> (encode d A = Ok s <-> base_text A d s).
Proof.
  intros A d s H2. destruct (text_exists A H2 d) as [s' [E T]]. rewrite E. split.
  - intros H; injection H as <-. exact T.
  - intros H. f_equal. eapply text_unique; eassumption.
Qed.
(** and any ASCII text for reading (the first of equal letters counts), *)
Theorem C67_decode_any_ascii_alphabet : forall A s d, is_ascii A -> (decode s A = Ok d <-> base_reads A s d).
Proof.
  intros A s d HA. split.
  - intros D. assert (I : is_ascii s).
    { destruct (Forall_dec (fun c => (c < 128)%N) lt128_dec s) as [I|I]; [exact I|]. rewrite (decode_non_ascii A s I) in D. discriminate. }
    split; [exact I|]. destruct (reading A HA s I) as (bs & S & V & E). exists bs.
    rewrite be_value_be2z. split; [exact S|]. split; [exact V|]. congruence.
  - intros (I & b & S & V & ->). destruct (reading A HA s I) as (bs & S' & V' & ->). f_equal.
    rewrite be_value_be2z in V. f_equal. apply stripped_unique; trivial. congruence.
Qed.

Lemma encode_small A d j : strip_zeros d = d -> be2z d = Z.of_nat j -> (0 < j < List.length A)%nat ->
  encode d A = Ok [nth j A 0%N].
Proof.
  intros Sd V Hj. unfold encode. rewrite string_to_int_be2z, V, lstrip0_strip, Sd, Nat.sub_diag.
  set (f := Z.to_nat _).
  assert (E : encode_loop (S f) A (Z.of_nat j) [] = Ok [nth j A 0%N]).
  { cbn [encode_loop]. destruct (Z.leb_spec (zlen A) (Z.of_nat j)); [unfold zlen in *; lia|].
    destruct (Z.eqb_spec (Z.of_nat j) 0); [lia|]. cbn [negb]. rewrite char_at_letter by (unfold zlen; lia).
    cbn [bind]. unfold letter. rewrite Nat2Z.id. reflexivity. }
  rewrite E. cbn [bind]. rewrite char_at_letter by (unfold zlen; lia). cbn [bind repeat app]. reflexivity.
Qed.
Lemma value_exists j : 0 < j -> exists d, strip_zeros d = d /\ be2z d = j.
Proof.
  intros Hj. destruct (bytes_loop_spec [] _ j [] (fuel_ok' [] j)) as (bs & S & V & _). exists bs. split; [exact S|]. lia.
Qed.
Lemma position_first c : forall A j, (j < List.length A)%nat -> nth j A 0%N = c -> exists i, position c A = Some i /\ (i <= j)%nat.
Proof.
  induction A as [|x A IH]; intros j Hj E; [cbn in Hj; lia|]. cbn [position]. destruct (N.eqb_spec c x) as [->|Nx].
  - exists 0%nat. split; [reflexivity|lia].
  - destruct j as [|j]; [cbn in E; congruence|]. cbn in E, Hj. destruct (IH j ltac:(lia) E) as (i & -> & Hi).
    exists (S i). split; [reflexivity|lia].
Qed.

(** The empty alphabet divides by zero, on every input. *)
Theorem C67_empty_alphabet : forall d, encode d [] = Raise (Builtin ZeroDivisionError).
Proof.
  intros d. unfold encode. cbn [encode_loop]. change (zlen (@nil N)) with 0.
  rewrite string_to_int_be2z. pose proof (be2z_bound d). destruct (Z.leb_spec 0 (be2z d)); [reflexivity|lia].
Qed.
(** With a single letter zeros can be written; on any other input the digit
    loop does not end: no number of iterations is enough. *)
Theorem C67_one_letter_zeros : forall c n, encode (repeat x00 n) [c] = Ok (repeat c n).
Proof.
  intros c n. unfold encode. rewrite string_to_int_be2z.
  assert (Z0 : strip_zeros (repeat x00 n) = []) by (induction n; [reflexivity|cbn; exact IHn]).
  assert (V : be2z (repeat x00 n) = 0) by (rewrite <- be2z_strip, Z0; reflexivity).
  rewrite V, lstrip0_strip, Z0, repeat_length. cbn. rewrite Nat.sub_0_r, app_nil_r. reflexivity.
Qed.
Theorem C67_one_letter_endless : forall c d, strip_zeros d <> [] ->
  forall iterations enc, encode_loop iterations [c] (string_to_int d) enc = Raise (Builtin NonTermination).
Proof.
  intros c d H n. rewrite string_to_int_be2z.
  assert (P : 1 <= be2z d).
  { rewrite <- be2z_strip. destruct (strip_zeros d) as [|b r] eqn:E; [congruence|].
    pose proof (strip_zeros_first _ _ _ E) as N. rewrite be2z_cons. pose proof (be2z_bound r). pose proof (b2z_range b).
    assert (b2z b <> 0) by (rewrite b2z_0; exact N). pose proof (Z.pow_pos_nonneg 256 (zlen r) ltac:(lia) ltac:(unfold zlen; lia)). nia. }
  induction n as [|n IH]; intros enc; cbn [encode_loop]; change (zlen [c]) with 1;
    (destruct (Z.leb_spec 1 (be2z d)); [|lia]); change (1 =? 0) with false; cbv iota; [reflexivity|].
  rewrite Z.mod_1_r, Z.div_1_r. cbn [char_at nth_error Z.to_nat bind]. apply IH.
Qed.

(** The alphabets that read back everything they write are exactly those with two
    or more letters, all different, all ASCII. *)
Theorem C67_round_trip_exactly : forall A,
  (forall d, exists s, encode d A = Ok s /\ decode s A = Ok d) <-> alphabet_ok A.
Proof.
  intros A. split.
  - intros H. assert (H2 : (2 <= List.length A)%nat).
    { destruct A as [|c [|c' A]]; [| |cbn; lia]; exfalso.
      - destruct (H []) as (s & E & _). rewrite C67_empty_alphabet in E. discriminate.
      - destruct (H [x01]) as (s & E & _). unfold encode in E. rewrite C67_one_letter_endless in E by discriminate. discriminate. }
    assert (I : is_ascii A).
    { apply (Forall_nth _ A). intros k d0 Hk. rewrite (nth_indep A d0 0%N Hk). clear d0.
      assert (T : exists d, encode d A = Ok [nth k A 0%N]).
      { destruct k as [|k].
        - exists [x00]. apply (C67_encode_any_alphabet A _ _ H2). exists 1%nat, [], []. cbn. repeat split; constructor.
        - destruct (value_exists (Z.of_nat (S k)) ltac:(lia)) as (d & Sd & V). exists d. apply encode_small; trivial. lia. }
      destruct T as (d & E). destruct (H d) as (s & E' & D). rewrite E in E'. injection E' as <-.
      destruct (N.ltb_spec (nth k A 0%N) 128) as [L|L]; [exact L|].
      rewrite (decode_non_ascii A) in D; [discriminate|]. intros F. inversion F; subst. lia. }
    split; [exact H2|]. split; [|exact I].
    apply (NoDup_nth A 0%N). intros i j Hi Hj E.
    assert (W : forall i j, (i < j < List.length A)%nat -> nth i A 0%N = nth j A 0%N -> False).
    { clear i j Hi Hj E. intros i j Hij E. destruct (value_exists (Z.of_nat j) ltac:(lia)) as (d & Sd & V).
      destruct (H d) as (s & E' & D). rewrite (encode_small A d j Sd V) in E' by lia. injection E' as <-.
      apply (C67_decode_any_ascii_alphabet A _ _ I) in D. destruct D as (_ & b & Sb & Vb & Ed).
      cbn [List.map digits_value List.length] in Vb. 
      assert (P : exists m, position (nth j A 0%N) A = Some m /\ (m <= i)%nat) by (apply position_first; [lia|exact E]).
      destruct P as (m & P & Hm). unfold digit_of in Vb. rewrite P in Vb.
      rewrite be_value_be2z in Vb. rewrite Ed, <- be2z_strip, strip_repeat, Sb in V. cbn in Vb. lia. }
    destruct (Nat.lt_total i j) as [Lt|[Eq|Gt]]; [|exact Eq|]; exfalso.
    + apply (W i j); [lia|exact E].
    + apply (W j i); [lia|symmetry; exact E].
  - intros HA d. destruct (encode_text A HA d) as [s [E _]]. exists s. split; [exact E|apply (decode_encode A HA), E].
Qed.

(** Concrete cases: a repeated letter loses data, hexadecimal digits work. *)
Example C67_example :
  encode [x02] (str "aba") = Ok (str "a") /\ decode (str "a") (str "aba") = Ok [x00] /\
  encode [xca; xfe] (str "0123456789abcdef") = Ok (str "cafe") /\
  decode (str "cafe") (str "0123456789abcdef") = Ok [xca; xfe].
Proof. vm_compute. repeat split. Qed.
