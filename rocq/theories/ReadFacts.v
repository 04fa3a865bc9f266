(** * ReadFacts: [decode] and [check_decode] against [SpecReads] *)
From Coq Require Import Lia ZifyBool ZifyNat ZifyN.
From Verif Require Import Py Prims Spec PyFacts Base58 Base58Facts SpecBip38 SpecReads CodecFacts.

Lemma position_in c : forall A, In c A -> exists i, position c A = Some i /\ (i < List.length A)%nat /\ nth i A 0%N = c.
Proof.
  induction A as [|x A IH]; [intros []|]. intros H. cbn [position]. destruct (N.eqb_spec c x) as [->|N].
  - exists 0%nat. cbn. repeat split; lia.
  - destruct H as [H|H]; [congruence|]. destruct (IH H) as (i & -> & L & E). exists (S i). cbn. repeat split; [lia|exact E].
Qed.
Lemma position_out c : forall A, ~ In c A -> position c A = None.
Proof.
  induction A as [|x A IH]; [reflexivity|]. intros H. cbn [position]. destruct (N.eqb_spec c x) as [->|N]; [destruct H; left; reflexivity|].
  rewrite IH; [reflexivity|]. intros I. apply H. right. exact I.
Qed.
Lemma digit_of_digit A : alphabet_ok A -> forall c, (c < 128)%N -> digit_of A c = digit A c.
Proof.
  intros HA c Hc. unfold digit_of. destruct (in_dec N.eq_dec c A) as [I|I].
  - destruct (position_in c A I) as (i & -> & L & E). rewrite <- E. replace (nth i A 0%N) with (letter A (Z.of_nat i)) by (unfold letter; rewrite Nat2Z.id; reflexivity).
    symmetry. apply (digit_letter A HA). unfold zlen. lia.
  - rewrite (position_out c A I). symmetry. apply (digit_notin A HA); assumption.
Qed.
Lemma map_digit_of A : alphabet_ok A -> forall s, is_ascii s -> List.map (digit_of A) s = List.map (digit A) s.
Proof. intros HA s I. apply map_ext_Forall. eapply Forall_impl; [|exact I]. intros c Hc. apply (digit_of_digit A HA), Hc. Qed.

Lemma zero_prefixes_filter A : forall ds v,
  zero_prefixes A v ds = List.length (filter (fun n => v * zlen A ^ Z.of_nat n + digits_value (zlen A) (firstn n ds) =? 0) (seq 1 (List.length ds))).
Proof.
  induction ds as [|d ds IH]; intros v; [reflexivity|]. cbn [zero_prefixes List.length seq filter firstn digits_value].
  rewrite Z.pow_1_r, Z.pow_0_r, Z.mul_1_r, Z.add_0_r. cbv zeta.
  assert (E : zero_prefixes A (v * zlen A + d) ds = List.length (filter
    (fun n => v * zlen A ^ Z.of_nat n + digits_value (zlen A) (firstn n (d :: ds)) =? 0) (seq 2 (List.length ds)))).
  { rewrite IH. rewrite <- (seq_shift (List.length ds) 1).
    assert (Lm : forall (f : nat -> bool) l, List.length (filter f (List.map S l)) = List.length (filter (fun n => f (S n)) l)).
    { intros f l. induction l as [|x l IHl]; [reflexivity|]. cbn [List.map filter]. destruct (f (S x)); cbn [List.length]; congruence. }
    rewrite Lm. f_equal. apply filter_ext_in. intros n Hn. apply in_seq in Hn. f_equal. cbn [firstn digits_value].
    rewrite firstn_length_le by lia. rewrite Nat2Z.inj_succ, Z.pow_succ_r by lia. ring. }
  destruct (Z.eqb_spec (v * zlen A + d) 0) as [E0|E0]; cbn [List.length Nat.add]; rewrite E; reflexivity.
Qed.
Lemma zero_prefix_count_eq A ds : zero_prefix_count (zlen A) ds = zero_prefixes A 0 ds.
Proof. rewrite zero_prefixes_filter. unfold zero_prefix_count. f_equal. Qed.

Lemma lt128_dec (c : N) : {(c < 128)%N} + {~ (c < 128)%N}.
Proof. destruct (N.ltb c 128) eqn:E; [left|right]; lia. Qed.
Lemma decode_reads A : alphabet_ok A -> forall s d, decode s A = Ok d <-> base_reads A s d.
Proof.
  intros HA s d. split.
  - intros D. assert (I : is_ascii s).
    { destruct (Forall_dec (fun c => (c < 128)%N) lt128_dec s) as [I|I]; [exact I|]. rewrite (decode_non_ascii A s I) in D. discriminate. }
    split; [exact I|]. destruct (decode_ascii A HA s I) as (bs & S & V & E). exists bs.
    rewrite (map_digit_of A HA s I), zero_prefix_count_eq, be_value_be2z. split; [exact S|]. split; [exact V|]. congruence.
  - intros (I & b & S & V & ->). destruct (decode_ascii A HA s I) as (bs & S' & V' & ->). f_equal.
    rewrite (map_digit_of A HA s I), zero_prefix_count_eq. rewrite (map_digit_of A HA s I), be_value_be2z in V.
    f_equal. apply stripped_unique; trivial. congruence.
Qed.
Lemma reads58 s d : base58_reads s d <-> decode s bitcoin_alphabet = Ok d.
Proof. symmetry. apply decode_reads, bitcoin_ok. Qed.
(** the same, with the model's name of the alphabet *)
Lemma reads_code s d : base58_reads s d <-> decode s base58_alphabet = Ok d.
Proof. apply reads58. Qed.
Lemma reads58check P : prims_ok P -> forall s d, base58check_reads P s d <-> check_decode P s bitcoin_alphabet = Ok d.
Proof. intros HP s d. unfold base58check_reads. rewrite reads58. symmetry. apply (check_decode_decode P HP). Qed.
Lemma no_reads58check P : prims_ok P -> forall s, (forall d, ~ base58check_reads P s d) -> forall d, check_decode P s bitcoin_alphabet <> Ok d.
Proof. intros HP s H d D. apply (H d), reads58check; assumption. Qed.

Lemma reads_b58 d : base58_reads (b58 d) d.
Proof. apply reads_code, decode_b58. Qed.
Lemma reads_b58c P : prims_ok P -> forall d, base58check_reads P (b58c P d) d.
Proof. intros HP d. apply (reads58check P HP), check_decode_b58c, HP. Qed.

(** Turn the hypotheses of a theorem about reading into ones about the code. *)
Ltac to_code := repeat match goal with
  | H : base58_reads _ _ |- _ => apply reads58 in H
  | HP : prims_ok ?P, H : base58check_reads ?P _ _ |- _ => apply (reads58check P HP) in H
  | HP : prims_ok ?P, H : forall d, ~ base58check_reads ?P ?s d |- _ => let X := fresh in pose proof (no_reads58check P HP s H) as X; clear H; rename X into H
  end.
