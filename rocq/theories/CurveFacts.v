(** * CurveFacts: the model of ecdsa's arithmetic (Curve.v) is the group of
    secp256k1. *)
From Coq Require Import Lia ZifyBool ZifyNat ZifyN Znumtheory Zpow_facts Ring Field Eqdep_dec.
From Verif Require Import Py Spec PyFacts Curve SpecCurve Primes ECGroup.

(** ** The prime field, for any prime *)
Section PrimeField.
  Variable p : Z.
  Hypothesis Hp : prime p.
  Lemma p_gt1 : 1 < p. Proof. pose proof (prime_ge_2 _ Hp). lia. Qed.

  Definition Fp : Type := { x : Z | (x mod p =? x) = true }.
  Definition val (a : Fp) : Z := proj1_sig a.
  Lemma mod_idem z : ((z mod p) mod p =? z mod p) = true.
  Proof. rewrite Z.mod_mod by (pose proof p_gt1; lia). apply Z.eqb_refl. Qed.
  Definition mk (z : Z) : Fp := exist _ (z mod p) (mod_idem z).
  Lemma val_range a : 0 <= val a < p.
  Proof.
    destruct a as [x H]. cbn. apply Z.eqb_eq in H. rewrite <- H. apply Z.mod_pos_bound. pose proof p_gt1; lia.
  Qed.
  Lemma val_inj a b : val a = val b -> a = b.
  Proof.
    destruct a as [x Hx], b as [y Hy]. cbn. intros <-. f_equal.
    apply UIP_dec. apply bool_dec.
  Qed.
  Lemma val_mk z : val (mk z) = z mod p. Proof. reflexivity. Qed.
  Lemma mk_val a : mk (val a) = a.
  Proof. apply val_inj. rewrite val_mk. apply Z.mod_small, val_range. Qed.
  Lemma mk_eq a b : mk a = mk b <-> a mod p = b mod p.
  Proof.
    split; [intros H; apply (f_equal val) in H; exact H|]. intros H. apply val_inj. exact H.
  Qed.

  Definition Fadd a b := mk (val a + val b).
  Definition Fmul a b := mk (val a * val b).
  Definition Fsub a b := mk (val a - val b).
  Definition Fopp a := mk (- val a).
  Definition F0 := mk 0.
  Definition F1 := mk 1.
  Definition Finv a := mk (val a ^ (p - 2)).
  Definition Fdiv a b := Fmul a (Finv b).

  Lemma mk_add a b : mk (a + b) = Fadd (mk a) (mk b).
  Proof. apply mk_eq. rewrite !val_mk. apply Z.add_mod. pose proof p_gt1; lia. Qed.
  Lemma mk_mul a b : mk (a * b) = Fmul (mk a) (mk b).
  Proof. apply mk_eq. rewrite !val_mk. apply Z.mul_mod. pose proof p_gt1; lia. Qed.
  Lemma mk_sub a b : mk (a - b) = Fsub (mk a) (mk b).
  Proof. apply mk_eq. rewrite !val_mk. apply Zminus_mod. Qed.
  Lemma mk_opp a : mk (- a) = Fopp (mk a).
  Proof. change (- a) with (0 - a). rewrite mk_sub. apply mk_eq. rewrite !val_mk. reflexivity. Qed.

  Lemma Fring : ring_theory F0 F1 Fadd Fmul Fsub Fopp (@eq Fp).
  Proof.
    unfold F0, F1.
    assert (E : forall x, exists z, x = mk z) by (intros x; exists (val x); symmetry; apply mk_val).
    constructor; intros;
    repeat match goal with
    | x : Fp |- _ => destruct (E x) as [? ->]; clear x
    end; rewrite <- ?mk_add, <- ?mk_mul, <- ?mk_opp, <- ?mk_sub, <- ?mk_add, <- ?mk_mul; try (f_equal; ring).
  Qed.
  Lemma Ffield : field_theory F0 F1 Fadd Fmul Fsub Fopp Fdiv Finv (@eq Fp).
  Proof.
    constructor; [apply Fring| |reflexivity|].
    - intros H. apply (f_equal val) in H. unfold F1, F0 in H. rewrite !val_mk in H. pose proof p_gt1.
      rewrite Z.mod_0_l, Z.mod_1_l in H by lia. discriminate.
    - intros a Ha. unfold Finv. rewrite <- (mk_val a) at 2. rewrite <- mk_mul.
      pose proof p_gt1 as P1.
      replace (val a ^ (p - 2) * val a) with (val a ^ (p - 1)).
      + unfold F1. apply mk_eq. rewrite fermat; trivial; [symmetry; apply Z.mod_1_l; lia|].
        intros D. apply Ha. apply val_inj. unfold F0. rewrite val_mk, Z.mod_0_l by lia.
        apply Z.mod_divide in D; [|lia]. rewrite Z.mod_small in D by apply val_range. exact D.
      + replace (p - 1) with (Z.succ (p - 2)) by lia. rewrite Z.pow_succ_r by lia. ring.
  Qed.
  Lemma Feq_dec (a b : Fp) : {a = b} + {a <> b}.
  Proof.
    destruct (Z.eq_dec (val a) (val b)) as [E|N]; [left; apply val_inj; exact E|right; congruence].
  Qed.

  Definition elems : list Fp := List.map (fun n => mk (Z.of_nat n)) (seq 0 (Z.to_nat p)).
  Lemma elems_all x : In x elems.
  Proof.
    unfold elems. apply in_map_iff. exists (Z.to_nat (val x)). pose proof (val_range x).
    rewrite Z2Nat.id by lia. split; [apply mk_val|]. apply in_seq. lia.
  Qed.
  Lemma elems_length : List.length elems = Z.to_nat p.
  Proof. unfold elems. rewrite map_length. apply seq_length. Qed.
  Lemma elems_nodup : NoDup elems.
  Proof.
    unfold elems. assert (X : forall l, NoDup l -> (forall n, In n l -> (n < Z.to_nat p)%nat) ->
      NoDup (List.map (fun n => mk (Z.of_nat n)) l)).
    { induction l as [|n l IH]; intros ND B; [constructor|]. inversion ND as [|? ? N1 N2]; subst.
      cbn [List.map]. constructor; [|apply IH; [exact N2|intros m Hm; apply B; right; exact Hm]].
      intros H. apply in_map_iff in H. destruct H as [m [E Hm]]. apply mk_eq in E.
      pose proof (B n (or_introl eq_refl)). pose proof (B m (or_intror Hm)).
      rewrite !Z.mod_small in E by lia. assert (m = n) by lia. subst. contradiction. }
    apply X; [apply seq_NoDup|]. intros n Hn. apply in_seq in Hn. lia.
  Qed.
End PrimeField.

(** ** The two primes *)
Lemma p_prime : prime p_field.
Proof. exact prime_115792089237316195423570985008687907853269984665640564039457584007908834671663. Qed.
Lemma n_prime : prime G_order.
Proof. exact prime_115792089237316195423570985008687907852837564279074904382605163141518161494337. Qed.
Lemma secp_p_field : secp_p = p_field.
Proof. vm_compute. reflexivity. Qed.
Lemma p_bounds : 2 ^ 255 < p_field < 2 ^ 256.
Proof. vm_compute. auto. Qed.
Lemma n_bounds : 2 ^ 255 < G_order < p_field.
Proof. vm_compute. auto. Qed.
Lemma p_big : 1000 < p_field.
Proof. vm_compute. reflexivity. Qed.
Lemma fold_p : 2 ^ 256 = p_field + 4294968273.
Proof. vm_compute. reflexivity. Qed.

(** ** Concrete field arithmetic *)
Lemma fold256_spec x : 0 <= x -> 0 <= fold256 x /\ fold256 x mod p_field = x mod p_field.
Proof.
  intros Hx. unfold fold256. rewrite Z.land_ones, Z.shiftr_div_pow2 by lia.
  assert (D : x = 2 ^ 256 * (x / 2 ^ 256) + x mod 2 ^ 256) by (apply Z.div_mod; lia).
  assert (Q : 0 <= x / 2 ^ 256) by (apply Z.div_pos; lia).
  assert (R : 0 <= x mod 2 ^ 256) by (apply Z.mod_pos_bound; lia).
  set (q := x / 2 ^ 256) in *. set (r := x mod 2 ^ 256) in *. clearbody q r. split; [nia|].
  rewrite D, fold_p. replace ((p_field + 4294968273) * q + r) with (r + q * 4294968273 + q * p_field) by ring.
  symmetry. apply Z.mod_add. pose proof p_big; lia.
Qed.
Lemma fred_mod x : fred x = x mod p_field.
Proof.
  unfold fred. destruct ((0 <=? x) && (x <? 2 ^ 520)) eqn:E; [|reflexivity].
  apply andb_prop in E. destruct E as [E _]. apply Z.leb_le in E.
  destruct (fold256_spec x E) as [P1 M1]. destruct (fold256_spec _ P1) as [P2 M2].
  destruct (Z.ltb_spec (fold256 (fold256 x)) p_field); [|congruence].
  rewrite <- M1, <- M2. symmetry. apply Z.mod_small. lia.
Qed.
Lemma fred_range x : 0 <= fred x < p_field.
Proof. rewrite fred_mod. apply Z.mod_pos_bound. pose proof p_big; lia. Qed.

Notation FF := (Fp p_field).
Notation v := (val p_field).
Notation m := (mk p_field p_prime).
Notation qadd := (Fadd p_field p_prime).
Notation qmul := (Fmul p_field p_prime).
Notation qsub := (Fsub p_field p_prime).
Notation qopp := (Fopp p_field p_prime).
Notation qdiv := (Fdiv p_field p_prime).
Notation qinv := (Finv p_field p_prime).
Notation q0 := (F0 p_field p_prime).
Notation q1 := (F1 p_field p_prime).
Notation qfield := (Ffield p_field p_prime).
Notation qdec := (Feq_dec p_field).

Lemma fadd_v a b : fadd (v a) (v b) = v (qadd a b).
Proof.
  unfold fadd, Fadd. rewrite val_mk. pose proof (val_range _ p_prime a). pose proof (val_range _ p_prime b).
  cbv zeta. destruct (Z.ltb_spec (v a + v b) p_field); [symmetry; apply Z.mod_small; lia|].
  apply (Z.mod_unique _ _ 1); lia.
Qed.
Lemma fsub_v a b : fsub (v a) (v b) = v (qsub a b).
Proof.
  unfold fsub, Fsub. rewrite val_mk. pose proof (val_range _ p_prime a). pose proof (val_range _ p_prime b).
  cbv zeta. destruct (Z.ltb_spec (v a - v b) 0); [|symmetry; apply Z.mod_small; lia].
  apply (Z.mod_unique _ _ (-1)); lia.
Qed.
Lemma fmul_v a b : fmul (v a) (v b) = v (qmul a b).
Proof. unfold fmul, Fmul. rewrite val_mk. apply fred_mod. Qed.
Lemma fmul_mod a b : fmul a b = (a * b) mod p_field.
Proof. apply fred_mod. Qed.
Lemma fpow_pos_mod a e : 0 <= a < p_field -> fpow_pos a e = a ^ Zpos e mod p_field.
Proof.
  intros Ha. pose proof p_big as B. induction e as [e IH|e IH|]; cbn [fpow_pos]; cbv zeta; rewrite ?fmul_mod, ?IH.
  - rewrite Pos2Z.inj_xI. replace (2 * Z.pos e + 1) with (Z.pos e + Z.pos e + 1) by lia.
    rewrite !Z.pow_add_r, Z.pow_1_r by lia. rewrite <- (Z.mul_mod (a ^ Z.pos e)), Z.mul_mod_idemp_l by lia. reflexivity.
  - rewrite Pos2Z.inj_xO. replace (2 * Z.pos e) with (Z.pos e + Z.pos e) by lia.
    rewrite !Z.pow_add_r by lia. rewrite <- Z.mul_mod by lia. reflexivity.
  - rewrite Z.pow_1_r. symmetry. apply Z.mod_small. exact Ha.
Qed.
Lemma fpow_mod a e : 0 <= a < p_field -> 0 < e -> fpow a e = a ^ e mod p_field.
Proof. intros Ha He. destruct e as [|e|e]; try lia. apply fpow_pos_mod. exact Ha. Qed.
Lemma finv_v a : finv (v a) = v (qinv a).
Proof.
  unfold finv, Finv. rewrite val_mk. apply fpow_mod; [apply val_range, p_prime|]. pose proof p_big; lia.
Qed.

(** ** The curve over the field *)
Definition qb : FF := m 7.
Lemma m_inj a b : m a = m b <-> cong a b.
Proof.
  rewrite mk_eq. unfold cong. rewrite secp_p_field. pose proof p_big. split.
  - intros E. exists (a / p_field - b / p_field).
    pose proof (Z.div_mod a p_field ltac:(lia)). pose proof (Z.div_mod b p_field ltac:(lia)). nia.
  - intros [k E]. replace a with (b + k * p_field) by lia. apply Z.mod_add. lia.
Qed.
Lemma q_two : qadd q1 q1 <> q0.
Proof.
  unfold F1, F0. rewrite <- mk_add, mk_eq. vm_compute. discriminate.
Qed.
(** -7 is not a cube modulo p: no point of order two *)
Lemma no_cube : fpow (p_field - 7) ((p_field - 1) / 3) <> 1.
Proof. vm_compute. discriminate. Qed.

Lemma q_no2 x : qadd (qmul (qmul x x) x) qb <> q0.
Proof.
  intros E. apply no_cube. pose proof p_big as B.
  rewrite fpow_mod by (try (apply Z.div_str_pos); lia).
  pose proof (val_range _ p_prime x) as R. set (z := v x) in *.
  rewrite <- (mk_val _ p_prime x) in E. fold z in E. unfold qb, F0 in E.
  rewrite <- !mk_mul, <- mk_add in E. apply mk_eq in E. rewrite Z.mod_0_l in E by lia.
  assert (C : (p_field - 7) mod p_field = (z ^ 3) mod p_field).
  { replace (z ^ 3) with (z * z * z) by ring. apply Z.mod_divide in E; [|lia]. destruct E as [k E].
    replace (p_field - 7) with (z * z * z + (1 - k) * p_field) by lia. apply Z.mod_add. lia. }
  assert (D : (p_field - 1) = 3 * ((p_field - 1) / 3)) by (vm_compute; reflexivity).
  rewrite (Zpower_mod (p_field - 7)), C, <- Zpower_mod by lia.
  rewrite <- Z.pow_mul_r by lia. rewrite <- D. apply fermat; [apply p_prime|].
  intros Dv. assert (z = 0).
  { apply Z.mod_divide in Dv; [|lia]. rewrite Z.mod_small in Dv by exact R. exact Dv. }
  rewrite H in C. vm_compute in C. discriminate C.
Qed.

(** ** Points: the model's integers against field elements *)
Notation Apt := (apt FF).
Notation qon := (on FF qadd qmul qb).
Notation qaadd := (aadd FF q0 qadd qmul qsub qdiv qdec).
Notation qamul := (amul FF q0 qadd qmul qsub qdiv qdec).
Notation qaneg := (aneg FF qopp).
Notation qrepr := (repr FF q0 qmul).
Notation qpadd := (ECGroup.padd FF qadd qmul qsub qb).
Notation qpmul := (ECGroup.pmul FF qadd qmul qsub qb).
Notation qto_p := (to_p FF q0 q1).

Definition abs (P : pt) : Apt :=
  match P with Inf => AInf FF | Aff x y => AAff FF (m x) (m y) end.
Definition conc (P : Apt) : pt :=
  match P with AInf _ => Inf | AAff _ x y => Aff (v x) (v y) end.
Definition tv (t : FF * FF * FF) : Curve.ppt :=
  let '(X, Y, Z) := t in (v X, v Y, v Z).

Lemma in_field_val x : in_field (v x).
Proof. unfold in_field. rewrite secp_p_field. apply val_range, p_prime. Qed.
Lemma abs_conc P : abs (conc P) = P.
Proof. destruct P as [|x y]; cbn [conc abs]; rewrite ?mk_val; reflexivity. Qed.
Lemma conc_inj P Q : conc P = conc Q -> P = Q.
Proof. intros E. rewrite <- (abs_conc P), <- (abs_conc Q), E. reflexivity. Qed.
Lemma conc_abs P : on_curve P -> conc (abs P) = P.
Proof.
  destruct P as [|x y]; [reflexivity|]. cbn [on_curve]. unfold in_field. rewrite secp_p_field.
  intros (Hx & Hy & _). cbn [abs conc]. rewrite !val_mk, !Z.mod_small by assumption. reflexivity.
Qed.
Lemma abs_on P : on_curve P -> qon (abs P).
Proof.
  destruct P as [|x y]; [constructor|]. cbn [on_curve abs on]. intros (_ & _ & E).
  unfold qb. rewrite <- !mk_mul, <- mk_add. apply m_inj. exact E.
Qed.
Lemma conc_on P : qon P -> on_curve (conc P).
Proof.
  destruct P as [|x y]; [constructor|]. cbn [on_curve conc on]. intros E.
  split; [apply in_field_val|split; [apply in_field_val|]]. apply m_inj.
  rewrite mk_add, !mk_mul, !mk_val. exact E.
Qed.

Lemma b3_v : Curve.b3 = v (ECGroup.b3 FF qadd qb).
Proof. vm_compute. reflexivity. Qed.
Lemma padd_tv s t : Curve.padd (tv s) (tv t) = tv (qpadd s t).
Proof.
  destruct s as [[X1 Y1] Z1], t as [[X2 Y2] Z2]. cbn [tv]. unfold Curve.padd, ECGroup.padd. cbv zeta.
  rewrite b3_v. rewrite !fmul_v, !fadd_v, !fmul_v, !fadd_v, !fsub_v, !fmul_v, !fadd_v, !fsub_v. reflexivity.
Qed.
Lemma pmul_tv k t : Curve.pmul k (tv t) = tv (qpmul k t).
Proof.
  induction k as [k IH|k IH|]; cbn [Curve.pmul ECGroup.pmul]; cbv zeta; rewrite ?IH, ?padd_tv; reflexivity.
Qed.
Lemma to_proj_tv P : to_proj P = tv (qto_p (abs P)).
Proof.
  destruct P as [|x y]; cbn [to_proj abs to_p tv]; unfold F0, F1; rewrite !val_mk, ?fred_mod;
  rewrite ?(Z.mod_small 0), ?(Z.mod_small 1) by (pose proof p_big; lia); reflexivity.
Qed.
Lemma to_aff_tv t P : qrepr t P -> to_aff (tv t) = conc P.
Proof.
  destruct t as [[X Y] Z]. destruct P as [|x y]; cbn [repr tv to_aff conc].
  - intros (_ & -> & _). unfold F0. rewrite val_mk, Z.mod_0_l by (pose proof p_big; lia). reflexivity.
  - intros (HZ & -> & ->). destruct (Z.eqb_spec (v Z) 0) as [E|_].
    { exfalso. apply HZ. apply val_inj. unfold F0. rewrite E, val_mk, Z.mod_0_l by (pose proof p_big; lia). reflexivity. }
    cbv zeta. rewrite finv_v, !fmul_v.
    assert (C : forall u, qmul (qmul u Z) (qinv Z) = u).
    { intros u. rewrite <- (F_R qfield).(Rmul_assoc).
      rewrite (F_R qfield).(Rmul_comm) with (x := Z). rewrite (Finv_l qfield) by exact HZ.
      rewrite (F_R qfield).(Rmul_comm). apply (F_R qfield).(Rmul_1_l). }
    rewrite !C. reflexivity.
Qed.

(** The group laws, instantiated. *)
Lemma qto_p_repr P : qrepr (qto_p P) P.
Proof. exact (to_p_repr FF q0 q1 qadd qmul qsub qopp qdiv qinv qfield q_two P). Qed.
Lemma qpadd_repr s t P Q : qon P -> qon Q -> qrepr s P -> qrepr t Q -> qrepr (qpadd s t) (qaadd P Q).
Proof. exact (padd_repr FF q0 q1 qadd qmul qsub qopp qdiv qinv qfield qdec qb q_two q_no2 s t P Q). Qed.
Lemma qpmul_repr k t P : qon P -> qrepr t P -> qrepr (qpmul k t) (qamul (Npos k) P).
Proof. exact (pmul_repr FF q0 q1 qadd qmul qsub qopp qdiv qinv qfield qdec qb q_two q_no2 k t P). Qed.
Lemma q_comm P Q : qon P -> qon Q -> qaadd P Q = qaadd Q P.
Proof. exact (aadd_comm FF q0 q1 qadd qmul qsub qopp qdiv qinv qfield qdec qb q_two q_no2 P Q). Qed.
Lemma q_assoc P Q R : qon P -> qon Q -> qon R -> qaadd (qaadd P Q) R = qaadd P (qaadd Q R).
Proof. exact (aadd_assoc FF q0 q1 qadd qmul qsub qopp qdiv qinv qfield qdec qb q_two q_no2 P Q R). Qed.
Lemma q_neg P : qon P -> qaadd P (qaneg P) = AInf FF.
Proof. exact (aadd_neg FF q0 q1 qadd qmul qsub qopp qdiv qinv qfield qdec qb P). Qed.
Lemma q_on_add P Q : qon P -> qon Q -> qon (qaadd P Q).
Proof. exact (on_add FF q0 q1 qadd qmul qsub qopp qdiv qinv qfield qdec qb q_two q_no2 P Q). Qed.
Lemma q_on_neg P : qon P -> qon (qaneg P).
Proof. exact (on_neg FF q0 q1 qadd qmul qsub qopp qdiv qinv qfield qb P). Qed.
Lemma q_on_mul n P : qon P -> qon (qamul n P).
Proof. exact (on_mul FF q0 q1 qadd qmul qsub qopp qdiv qinv qfield qdec qb q_two q_no2 n P). Qed.
Lemma q_mul_add a c P : qon P -> qamul (a + c) P = qaadd (qamul a P) (qamul c P).
Proof. exact (amul_add FF q0 q1 qadd qmul qsub qopp qdiv qinv qfield qdec qb q_two q_no2 a c P). Qed.
Lemma q_mul_mul a c P : qon P -> qamul (a * c) P = qamul a (qamul c P).
Proof. exact (amul_mul FF q0 q1 qadd qmul qsub qopp qdiv qinv qfield qdec qb q_two q_no2 a c P). Qed.
Lemma q_mul_inf n : qamul n (AInf FF) = AInf FF.
Proof. apply amul_inf. Qed.
Lemma q_mul_succ n P : qamul (N.succ n) P = qaadd P (qamul n P).
Proof. apply amul_succ. Qed.
Lemma q_mul_1 P : qamul 1%N P = P.
Proof. apply amul_1. Qed.
Lemma q_inf_r P : qaadd P (AInf FF) = P.
Proof. apply aadd_inf_r. Qed.
Lemma q_mul_add_point n P Q : qon P -> qon Q -> qamul n (qaadd P Q) = qaadd (qamul n P) (qamul n Q).
Proof. exact (amul_add_point FF q0 q1 qadd qmul qsub qopp qdiv qinv qfield qdec qb q_two q_no2 n P Q). Qed.
Lemma q_cancel P Q R : qon P -> qon Q -> qon R -> qaadd P Q = qaadd P R -> Q = R.
Proof. exact (cancel_l FF q0 q1 qadd qmul qsub qopp qdiv qinv qfield qdec qb q_two q_no2 P Q R). Qed.
Lemma q_generated GG n : qon GG -> Nat.Odd n -> qamul (N.of_nat n) GG = AInf FF ->
  (forall k, (0 < k < n)%nat -> qamul (N.of_nat k) GG <> AInf FF) ->
  (1 + 2 * List.length (elems p_field p_prime) < 3 * n)%nat ->
  forall P, qon P -> exists k, (k < n)%nat /\ P = qamul (N.of_nat k) GG.
Proof.
  intros OG Odd nG ord cnt.
  exact (generated FF q0 q1 qadd qmul qsub qopp qdiv qinv qfield qdec qb q_two q_no2
    (elems p_field p_prime) (elems_all _ _) (elems_nodup _ _) GG OG n Odd nG ord cnt).
Qed.

(** ** The model's operations are the group operations *)
Lemma ec_add_conc P Q : on_curve P -> on_curve Q -> ec_add P Q = conc (qaadd (abs P) (abs Q)).
Proof.
  intros OP OQ. unfold ec_add. rewrite !to_proj_tv, padd_tv. apply to_aff_tv.
  apply qpadd_repr; auto using abs_on, qto_p_repr.
Qed.
Lemma ec_mul_conc k P : on_curve P -> ec_mul (Z.of_N k) P = conc (qamul k (abs P)).
Proof.
  intros OP. destruct k as [|k]; [reflexivity|]. cbn [Z.of_N ec_mul].
  rewrite to_proj_tv, pmul_tv. apply to_aff_tv. apply qpmul_repr; auto using abs_on, qto_p_repr.
Qed.
Lemma ec_neg_conc P : on_curve P -> ec_neg P = conc (qaneg (abs P)).
Proof.
  intros OP. rewrite <- (conc_abs P OP) at 1. destruct (abs P) as [|x y]; [reflexivity|].
  cbn [conc ec_neg aneg]. unfold Fopp. rewrite val_mk, fred_mod. reflexivity.
Qed.
Lemma ec_neg_on P : on_curve P -> on_curve (ec_neg P).
Proof. intros OP. rewrite ec_neg_conc by exact OP. apply conc_on, q_on_neg, abs_on, OP. Qed.
Lemma ec_mul_neg k P : ec_mul (- k) P = ec_mul k (ec_neg P) \/ k = 0 \/ k < 0.
Proof. destruct k as [|k|k]; [right; left; reflexivity|left; reflexivity|right; right; lia]. Qed.
Lemma ec_mul_opp k P : 0 <= k -> ec_mul (- k) P = ec_mul k (ec_neg P).
Proof. destruct k as [|k|k]; [reflexivity|reflexivity|lia]. Qed.
Lemma ec_add_on P Q : on_curve P -> on_curve Q -> on_curve (ec_add P Q).
Proof. intros OP OQ. rewrite ec_add_conc by assumption. apply conc_on, q_on_add; apply abs_on; assumption. Qed.
Lemma ec_mul_on k P : on_curve P -> on_curve (ec_mul k P).
Proof.
  assert (X : forall k P, 0 <= k -> on_curve P -> on_curve (ec_mul k P)).
  { intros k' P' Hk OP. rewrite <- (Z2N.id k' Hk), ec_mul_conc by exact OP. apply conc_on, q_on_mul, abs_on, OP. }
  intros OP. destruct (Z.le_gt_cases 0 k) as [H|H]; [apply X; assumption|].
  replace k with (- (- k)) by lia. rewrite ec_mul_opp by lia. apply X; [lia|apply ec_neg_on, OP].
Qed.
Lemma ec_comm P Q : on_curve P -> on_curve Q -> ec_add P Q = ec_add Q P.
Proof. intros OP OQ. rewrite !ec_add_conc, q_comm by auto using abs_on. reflexivity. Qed.
Lemma ec_assoc P Q R : on_curve P -> on_curve Q -> on_curve R -> ec_add (ec_add P Q) R = ec_add P (ec_add Q R).
Proof.
  intros OP OQ OR. rewrite (ec_add_conc (ec_add P Q)), (ec_add_conc P (ec_add Q R)) by auto using ec_add_on.
  rewrite !ec_add_conc, !abs_conc, q_assoc by auto using abs_on. reflexivity.
Qed.
Lemma ec_inf_r P : on_curve P -> ec_add P Inf = P.
Proof. intros OP. rewrite ec_add_conc by (trivial; exact I). cbn [abs]. rewrite q_inf_r. apply conc_abs, OP. Qed.
Lemma ec_inf_l P : on_curve P -> ec_add Inf P = P.
Proof. intros OP. rewrite ec_comm by (trivial; exact I). apply ec_inf_r, OP. Qed.
Lemma ec_add_neg P : on_curve P -> ec_add P (ec_neg P) = Inf.
Proof.
  intros OP. rewrite ec_add_conc by auto using ec_neg_on. rewrite ec_neg_conc, abs_conc, q_neg by auto using abs_on. reflexivity.
Qed.
Lemma ec_mul_0 P : ec_mul 0 P = Inf. Proof. reflexivity. Qed.
Lemma ec_mul_1 P : on_curve P -> ec_mul 1 P = P.
Proof. intros OP. change 1 with (Z.of_N 1). rewrite ec_mul_conc, q_mul_1 by exact OP. apply conc_abs, OP. Qed.
Lemma ec_mul_inf k : ec_mul k Inf = Inf.
Proof.
  destruct (Z.le_gt_cases 0 k) as [H|H].
  - rewrite <- (Z2N.id k H), ec_mul_conc by exact I. cbn [abs]. rewrite q_mul_inf. reflexivity.
  - replace k with (- (- k)) by lia. rewrite ec_mul_opp by lia. cbn [ec_neg].
    rewrite <- (Z2N.id (- k)) by lia. rewrite ec_mul_conc by exact I. cbn [abs]. rewrite q_mul_inf. reflexivity.
Qed.
Lemma ec_mul_add a c P : 0 <= a -> 0 <= c -> on_curve P -> ec_mul (a + c) P = ec_add (ec_mul a P) (ec_mul c P).
Proof.
  intros Ha Hc OP. rewrite ec_add_conc by auto using ec_mul_on.
  rewrite <- (Z2N.id a Ha), <- (Z2N.id c Hc), <- N2Z.inj_add, !ec_mul_conc, !abs_conc, q_mul_add by auto using abs_on. reflexivity.
Qed.
Lemma ec_mul_mul a c P : 0 <= a -> 0 <= c -> on_curve P -> ec_mul (a * c) P = ec_mul a (ec_mul c P).
Proof.
  intros Ha Hc OP. rewrite <- (Z2N.id a Ha), <- (Z2N.id c Hc), <- N2Z.inj_mul.
  rewrite (ec_mul_conc _ (ec_mul _ P)) by auto using ec_mul_on.
  rewrite !ec_mul_conc, abs_conc, q_mul_mul by auto using abs_on. reflexivity.
Qed.
Lemma ec_cancel P Q R : on_curve P -> on_curve Q -> on_curve R -> ec_add P Q = ec_add P R -> Q = R.
Proof.
  intros OP OQ OR E. rewrite <- (conc_abs Q OQ), <- (conc_abs R OR). f_equal.
  apply (q_cancel (abs P)); auto using abs_on. apply conc_inj. rewrite <- !ec_add_conc by assumption. exact E.
Qed.

(** ** The generator *)
Lemma G_on : on_curve G.
Proof.
  cbn [on_curve G]. unfold in_field. rewrite secp_p_field. split; [vm_compute; split; [discriminate|reflexivity]|].
  split; [vm_compute; split; [discriminate|reflexivity]|]. apply m_inj. apply mk_eq. vm_compute. reflexivity.
Qed.
(** The multiple by the order less one, computed with chords and tangents whose slopes are given and checked. *)
Inductive slope := Tangent (l : Z) | Chord (l : Z) | Chord_neg (l : Z).
Definition line (l x1 y1 x2 : Z) : pt :=
  let x3 := fred (Z.square l + (p_field + p_field - x1 - x2)) in
  Aff x3 (fred (l * (x1 + p_field - x3) + (p_field - y1))).
Definition tangent (l : Z) (P : pt) : option pt :=
  match P with
  | Aff x y => if fred (l * (y + y)) =? fred (3 * Z.square x) then Some (line l x y x) else None
  | Inf => None
  end.
Definition chord (l : Z) (P Q : pt) : option pt :=
  match P, Q with
  | Aff x1 y1, Aff x2 y2 =>
      if negb (x1 =? x2) && (fred (l * (x1 + p_field - x2)) =? fred (y1 + p_field - y2)) then Some (line l x1 y1 x2) else None
  | _, _ => None
  end.
Fixpoint along (ls : list slope) (P : pt) : option pt :=
  match ls with
  | [] => Some P
  | s :: ls =>
      match match s with Tangent l => tangent l P | Chord l => chord l P G | Chord_neg l => chord l P (ec_neg G) end with
      | Some P => along ls P
      | None => None
      end
  end.
Fixpoint along_value (ls : list slope) (z : Z) : Z :=
  match ls with
  | [] => z
  | Tangent _ :: ls => along_value ls (2 * z)
  | Chord _ :: ls => along_value ls (z + 1)
  | Chord_neg _ :: ls => along_value ls (z - 1)
  end.
Definition G_slopes : list slope :=
  [Tangent 0xcb35b28428101a303eb9d1235992ac63f58857c2f631ee6936d3aebbeddcd1b1;
   Tangent 0x6ad2cb95963c033328d4857d4f8711deff557dd9faaa673b400442833f0efb64;
   Tangent 0x9693023fb325cc6c7bc993eb684358ea623d5feea8ff351df662beabd0efdc6d;
   Tangent 0xbc380350880ab969e653d334691ca8c2da83b2acde59e7439ed92d96a9654a07;
   Tangent 0xb68c9cb56c4f0fd3279f2dec6acae3ffbacfb8384548d24892d676cd6beacbf5;
   Tangent 0x57aaae4151a198790e40eb37fe0dad5ed4d4581b1a82c40124b58ac767ed1ec4;
   Tangent 0x875978642d00b859133774fec1878f9e7623f6df9c734f7ed297e920a77b4406;
   Tangent 0xf0d3817330010db820c7710c8ee17a157984f4bfd3bafbd4a49079efd7754990;
   Tangent 0xed7816fe6ca3e42058b150c9eeac31ef8a6bda7ee9e51a0ec33e09f96afc74bc;
   Tangent 0x62f219d148d24eff34fe56735390098e29b6a2190daa3dc0fbd1d33b92531a49;
   Tangent 0xda8eabc70379e66ae8e505f49deb2e1b4906022def4c45ec320e33aed7091903;
   Tangent 0x6c49014b33417076abaadc7958f95908e93dd2886468bd7d27d61cef7c1fdfdd;
   Tangent 0xca43b3ab114e7c697fee873576d7b89f909e0592f9e805e00246c31200fb967b;
   Tangent 0x1b5d9cdfbd96d7eaf397653b120ed6cb0f4bd05bf004f79c2a9fd0bcdf4929bc;
   Tangent 0x6fedf4339b46436d0db4e1864076fe618c51a754e1c0ed5708b889c5733613e;
   Tangent 0xa377ffff0b36d0535197bead9992fee7698334fa5bfc270f64d511cc9ab7c03a;
   Tangent 0xbe610814de113647213fff8fc6378b31333e2bac4ac437ff9a702a6734563c9;
   Tangent 0x92ebb512788e5c3c7a3baf1feaf8281104d50976aef98bbac62a97be2d8b7a7b;
   Tangent 0x9b0f855eb9be64f095aa255167f0f0baf01b2cd3cc72ef8f1444747071666278;
   Tangent 0xc95c70effee378ee51d4695a7e30804db90a8fdfcca618c180cec3ec5c83b500;
   Tangent 0xec7e64a924b93bbe0b71cb15729ff63848d6104ae7d55a16ed4a41d45b8fe684;
   Tangent 0x4a97f998b50e69d9b7f9c654687b8490e7f4a168b22ee05f0491f67c5bcae6b4;
   Tangent 0xc0b764bf04ae63359beb2b4fc6f722f47da0482483379a58ca50aff8c2ea4869;
   Tangent 0xb9f84addcab19fb53a62e79564f6075b848477821df6d6c58668d8e9b2501575;
   Tangent 0xc985b179caa5bee0ef6acefc42c0dec227b196c5dbd0953cc43c5868392e7cd3;
   Tangent 0xa6d04e5b19577537db75701165cc1aa476cbdc92cb167d90af93b785d698742e;
   Tangent 0x4479d94c2f98166b4c1d24655334f9bab459cb5a6c074f1e9bb5b9ea97b6a18b;
   Tangent 0xbe5aafdeb2f0b1599d1b413e816d0ae93363953c3d97e4fd3afed1c367f9596d;
   Tangent 0xa6a6f72a0273aa6f7b6276e647117f1c0e9f5561a551c6238ec167ba7ac03635;
   Tangent 0x8dee3efccec9fbd528bcbdfc380d106f09ab41277d36c65ed6c4dc4784ea857a;
   Tangent 0xdb3e8ec5d990ec59421e6569d96dcdaecb7f725432c5a4ddb78439afbfe5554f;
   Tangent 0xf18fad968cb987adc7d7c35fc6ad8974a3fcf82a55e9400e7bf3015e6b558a5;
   Tangent 0x82cd82212ae9dbf4101c8671a40de941c0bc39b23359c41063b171fe4cbf7c6a;
   Tangent 0xc5ab93dae7b4d1d3c5edfe8bc49fa6ba5566b166494b830b6cf082231fe99f39;
   Tangent 0xde12036f73e80356f7db91954e2ca46c56dcab93ec4efda7fa9e72b8b3a2b20a;
   Tangent 0xeaaf7c28dae8dfa52783d0b7ef5ebc91aa999f58db631588e00a05856dbef4cd;
   Tangent 0x27923dd35874b9d0c3e1b1930352c0c3b0d91412f38fa8c1341f5a73beb4f8b9;
   Tangent 0xd8880a7ae61955a53b91ef1d5de7f4b9646afd475edbbc8974911329e12fbdcd;
   Tangent 0x8676b3eae525414b100a173e847e521f75a5c46ae628b3858b1c1fbcbc59daf7;
   Tangent 0xf53ade417a0d913b3b9e411781e6e8de0ff1a6b169ca912fe5495f51c90530d8;
   Tangent 0x32f78aa8da44cbc85c1d785fb24f0e7f0da8ec5386523d436bb3a50d1e52fb8c;
   Tangent 0x2c5edb78f874848d89ceb49fa59a1ff38ba3a6605f567ca67bb74a6e78c097d7;
   Tangent 0xdebcd686b581f6645f94a93467d0ecdf9e4ad7edeedcfeed57d9d6364c78d427;
   Tangent 0x81751b61f3b4ad7169d8ac62378adc14043339e3a60078fa2bf394c804c26e20;
   Tangent 0xea6ec05c50822815af2653e43c1adabb3be24e602591c72373d731cc1a44a051;
   Tangent 0xe60635d4ed2d254e05003b55d58bd309cce50b703f8dbf6d4700a65d85559a25;
   Tangent 0x7471bc58c865f770a22bcb1e2465507731b3ad17d19c55c851a736531fefafae;
   Tangent 0xc84b8bb00e0f4407e49fe1be00895dca6d817c8ce64cfebb5d67625411bde644;
   Tangent 0xdfada4b2106cac4951ec538f3d828576d57426ebe0d870d5e091e5b044aa5639;
   Tangent 0x51ee9a34eead0ad899a54439d004a42a2f3fa11be3c4773c1dc6457062e3572b;
   Tangent 0x602c9992d00cc6030985312c38033bca60ce74f3a25777862a7288488389cdc1;
   Tangent 0x2caed624594a3483ad98859bef75a97ed7cc509bd906bb2b23fbf9fbe4e5004f;
   Tangent 0xff486a88ac95151d852a5270924d4ccf1fff7b676398e499d324893a4bbb576c;
   Tangent 0x8309b9cd7caf364f8a4726b848e574837a1498176583cd38a99bbf35c27c0e01;
   Tangent 0xc3a088da9a740fbef9a36dc94890489302dbf3a200c6aad18428714f41d62ef0;
   Tangent 0x9a1bb41d1a00d1b60cc94b47fe3b071dd38189836c875b949a5bb1b3744d5622;
   Tangent 0x738fd7bbbe9afd0e286fa67c1b3d9d1d4306cf1d91327714eb87d7e6678bcdb6;
   Tangent 0x245df8c5a6ad254b4c4c56c0d969cacd2ea321b08b1ed4d55515f34d582f7420;
   Tangent 0xb51b78655a4e5a25c8c18dd20190b5571b736e586729fe907b550841e1b6724f;
   Tangent 0x2e95bd430cb40948c3e3069bb698efdada1d87ac3d902f2d55129e9cbdb660d4;
   Tangent 0x61ff0b09e723c8829eb256b349701c992867da5babb9246b4e80f4a06a7739aa;
   Tangent 0x3172c36f49857e7e10d1b5927bf54091d80521d6b2eb92a8998b92cbb2234de1;
   Tangent 0xc3c8b71e8454afd4fe4ae23209d6947bbfdb44f29f3474cbf6e1de6bfd9974ad;
   Tangent 0xc781a37bd88a0baa945a25dcbec891a96eab33936f3ae33b924c4ebb9ccc91e1;
   Tangent 0x5e1c71fb55e898f6e64912dece2b8a3d031f1eaee2af6f37ebd48ca94c1a3624;
   Tangent 0x5adeba52ee6ac0e141ffb884efa7a7d9a940b9950373647c8aaef60dd14e763c;
   Tangent 0xa478dd7bfcb0fe45115c6952feba38f9de0842736b164666c083b48c9ac6cb1;
   Tangent 0x104f2aa37e05be6add58d281a2334816593555f014ce643f702814ec1391f5a4;
   Tangent 0xad98ae499f8b968dacfaf69097db01061deecdd4b8b7fe434720aaf6131a6fc1;
   Tangent 0xe3b8c91ddd9155986dea06e85caade56b09b179572444c1c2007fd77d04d6f0;
   Tangent 0x6d5074103e91fdcfa4597e9b5c32b822c19b5af92207eb477c72ec4f9dcccb6b;
   Tangent 0xb0486abb58d31b2dc9704b8502170a38dc4139987db4802a1661a40d857824d;
   Tangent 0xe6d9fa3e6518d4e9723dea425cf89cf627c6b2258bb185785b0f3d91b04e6115;
   Tangent 0xd884b65bd5b8dfcbdda21a681b317b0bcbf4d101debc21a38ca7300520334d4c;
   Tangent 0x9d1540c9467d3bf99ee5b77f3c9121f1a88e1886ce5c64aa196b85cf6815554e;
   Tangent 0xc48405b3038c03bd744a8ed8a5527cb83e8f1929b392d0a6967cbd721bae0b;
   Tangent 0xf9bd4b25fb8787ac97edb42b9bac8deb9ff7ef01b41f5d6575086f1012bf96ce;
   Tangent 0x95b144bd0405b76f012f298ce4bf1355bccb8671d21cdb26d904bbbeb3860cda;
   Tangent 0xcd97a7266946a362a966c2469bb3e45413110726a2c395c2bea221545461dbef;
   Tangent 0xe53ce2c798d39bef6ff55175192d6b703f4df8f610db8e47bda11627318a4605;
   Tangent 0x18b9cd189f45726e2c6dfdc2cce38866bc945ec92113621bfaa817ce723adf9e;
   Tangent 0xbcba2313f29e1d97551bf61072f2a6f583d17ef9378ac65a6a5a28639887beb1;
   Tangent 0xccb0c2d5a765fae0fa90950f0ed92a38ad56207a00bd4f3ea9da4b31dfc25815;
   Tangent 0xdfedec6f42f70b127c80c91fa38ee129550274bde0c96a7286b93a0f6c39dfc0;
   Tangent 0x24076fdb1fa11f74017e5c3696347308e32b3f0e740977d9c044061b43cc1ca4;
   Tangent 0x38894d85c2951105037a5d11369af6d039f62d660aef1e5b13689d8a8da7b17a;
   Tangent 0x43e3186271177bc3437dffd0f295e9a9b2a7a173698f8c15f747e07c7e8ff275;
   Tangent 0xb52c04d03ee5d1a4b1d4065d2e74ed960cb2de26a95aa21abbc0df208ef24801;
   Tangent 0xa25099814b5320e1032c789b522196ca8e997d9c4c7caf884c79019ad46985e4;
   Tangent 0x722376042ae0f9d2ab08571a325abc3a4436037b5b82183ef03f4c040825c566;
   Tangent 0xa108d01af8d3416aa2f0e358342876e2ba7343cd700f6c28a824e467637a1221;
   Tangent 0xaa93ae9daa82037fbb9b9ac8d39248dd36602f49c2588d2617debf0c252844b5;
   Tangent 0x1636e902f0379b679aafde9343d791a7ab89d449ce8432e3b716d55e3470094f;
   Tangent 0x61d87a0cfe2e33fd3d7b20932d6ec316534b451b05017d55ebf66df97c650703;
   Tangent 0x24454cfd40d319c9fe377ebae48788ea6718ae1dc023e42f98c46838dfdb2715;
   Tangent 0x717534901dbb59ab006854c068a50dfdd20232fe591a31fbd7dda12262862069;
   Tangent 0x41c5c1a77b62baa51b180e1dcbff6780ece0a093f5a78051c6de090fab67d58b;
   Tangent 0xcc008c577437b3b458c9b836494bb2bc62d6e64da3f0842ef710401e85163577;
   Tangent 0x9294b9f9f80b87f9d51ea42cdc54616c6c8cacf9b6a14ad9e9bee370d90df338;
   Tangent 0x27b376e30f76ec47e5e68b16c3a2cf484262baa820f9d61937a65d963ba0a28f;
   Tangent 0xf1bf5eae2a0c4c9ef23bb69797a3827927656b3d5c2e1dc0e927cc43f0db11ba;
   Tangent 0x546acca7e813b1998650b06326ef6544d2d72aa88a3413c45c35c5c3ba5cef5e;
   Tangent 0x631098678fdb228e7be3f87f83e86efe5e8cb7d78b2be931475be0b75e618be4;
   Tangent 0x792c04e8f7afd1b9a401fb8523f74d5c81c76302b10a6726b0a0b54d60e62eac;
   Tangent 0xa12d5e05dff013873b8147dae62e9e6caf91901e3e357c1cec3858f69f0d4b2;
   Tangent 0x2a2f3623eafc2706805279368e2b1c5c2afa8d5e85e53d5ba7e9d48345cf88f4;
   Tangent 0x292696c573b74a6cd56a72bbb1bcc0d621fb2ff611aec55bd728a03258fa9ac4;
   Tangent 0xaa59b2dd302ea6d3ebf0bd86b52a675096448eaee3e2c37f59fe73a32ea2452c;
   Tangent 0x9824e79ee39825411d7bf6454d5ed23a6453d1b81b9b3a889361ae2bb1a01db9;
   Tangent 0x1410252b4cd150f805430da05be0fa84af1a95f3bda9041d49b5dac99bde7dbc;
   Tangent 0xd835dfd81665457b77de5400f8e630b0f3fee3384b8a278f65ff35efbac3549d;
   Tangent 0x31acb4e1b1cf7975d68309d78e4079a67ff7ca16b70a141bca36aa1e38f7816;
   Tangent 0x9e134159fa7f342a7059c56115bfcbe4aee40bb38561a32f7d1cd882eb497297;
   Tangent 0xf7f95ba71f70ffae38b8afe471517eb23276f67bb7e8587cbcc1c8f03fdd8edc;
   Tangent 0x775399578055e555c62520e02bf03e8454a29230887ca4369e4c87b9bb0ba8cd;
   Tangent 0x500a08279b3c953b7ea4c442af79ee4fc12bb93017e4727816b4374fcac245db;
   Tangent 0x759f42169706492f4d893748465b0b891cf451657415eb8bad19754d88799bb8;
   Tangent 0x9b2f8851451a0c4a32b655df99f323889b9f437a5ac499423c383f787a29e43e;
   Tangent 0xfd694f82ce17714f7e6a833cfa028cf5206ab4c04bab17679f65e28f90487e1d;
   Tangent 0x6d66f1633c0ea4e3be369e04bdcfc73efac3f92d72320932c55fd0197c48e44a;
   Tangent 0x60fb0dd8cfb159a6cc7a0b308761f2bb17857246959617835ef54989090a211d;
   Tangent 0x50018607e3d60e50bc5e7dd6ea0060dab9e5478b964170294f64677ef6f5adfd;
   Tangent 0xcae60ba240a4434e4187587e5c8846b5fb61cb5eed6df31ef65e69275e8298dd;
   Tangent 0x27fec578a9edadb2aa5328699c0a3cccb201d9e4c4c46c036041f20898797576;
   Tangent 0xd4f0db18fed8a66a083b386445c250011b57923062480f793ccb65d82d6f2d6b;
   Tangent 0x58ff873b75fe48d0de02ba7960e477f2b009a1fad79a0c13db1f838a68704f33;
   Tangent 0x4a448861c49b177bf3d75a72ffbe403636a0189476ffa033360c12be26583b58;
   Tangent 0x857ad2cd6b2921bd076754555a30fbaa46c691e4d20c90d6ea86468cd38da973;
   Chord_neg 0xfc8b6877fac26cb8bad159ffb5054e192d185a695991e862b13a1157137bdfbe;
   Tangent 0x9aaedcd3f59a511859bf395e1ecd70760076101893a56bb21333695455e74996;
   Tangent 0xa9148f747424fe2d32b64be58cfc911fb79a6b7651fd7659709c61ec71d226d5;
   Chord_neg 0xc1e5bfae7e9ab5edac943a509f0b909de0240ab289c209ced04849d954c1ed4a;
   Tangent 0x8532f8eb16203de056ee10bbbb95ff107dc6b10e55caeb78c5b32aa624c44c35;
   Tangent 0x7dadbcbfaa91cbbf78b2986150ac4e327edb9c69606820cb5a391831b9aa8b86;
   Tangent 0x464b37aee9e3cf9ceb318e70fbf5949a9746428a0d4230c392969175c1fe9102;
   Tangent 0x90d58ca4958eb13899468baa7bd19964d7201875b86dde6ccd6bd3c90ce236df;
   Chord_neg 0xf91b01b74c44d50452c012ebde3fb579cafdd97f7d7bf637f019fcaaf7079e9;
   Tangent 0x37b6c936c1f724a47343cb4fdfd95568d4ebe6acc6d9e50901a795723e359831;
   Tangent 0x1feaf819ffca25f3b9c197e022f9534f881680b73b166f6322e4c00d66ddccc1;
   Chord_neg 0xe1a5f099e7d10503cf72913018556899858d231be015d0d574c73063a319368b;
   Tangent 0xd1c03969250c4dd33fb07bcbfc4f9e59fb99a37d71a5a1b3fff6f08ca4156e2c;
   Tangent 0xf2e392a1075b09257a56d40b9302887966fbd4a1789052512367e3174d62b5c3;
   Chord_neg 0xb8eda1a8824a7752dce3f803f0bc739aa7ffcd9e6730fc80874075ca4078d38;
   Tangent 0x714ac25124a0f210514a0ffda9101cac365c8d7f76311c6c49fdaa7d96325f24;
   Tangent 0xeff70c491077d6ec76deb529425a4439fb9f0a65fb05229200a788c0d3b3ed2d;
   Chord_neg 0xf66eeb2ae5c65a6823253261c9092f7a97cb28ad3eb54ecce2149811566c4636;
   Tangent 0xfb2b929c5c52a0c85b192208855d148ae2de4e021d066d7be9836724bf3c5059;
   Tangent 0xa538286f0f4dd5abd361615c2a97b79ec03b46c49c35832dfc7ae456d6d673c0;
   Tangent 0x9838f6c643c678e8ea7ff729a7268090a7103064616ee571f8cc564d0c14db8a;
   Tangent 0x25ac4c4957cfb517208fb3a1da2e8a863ee0692ea7f2bca7e8c07e2e660d9bb6;
   Chord_neg 0xf34fa0ae9b45403fe0e834b98a53b11064998c305cd2314cb9fbccfaf3738f54;
   Tangent 0xd25bed1f34d120a9f3eb037b4ec798f6a36e21192d34baa62fb7080012575a4a;
   Tangent 0xef22b56da8a04a7d889068152800e8a662d13200bcf3f8866c73cdcc98b1877e;
   Tangent 0xef0cd14edd1e93bdf5c7068919d57c768f289c5bf9b99d1d0096565e752b463c;
   Chord_neg 0xa74eb1ded9b0a87b22f86c7caf786224204ce368ee629765ca0421fb5b104915;
   Tangent 0xba7b6f02dc63af8fd13b23dda46e194d0dc1d899e799c1caca6b0b37586332f9;
   Tangent 0xb65975493130d4bdb9e2a904b9df8e50e25670b8fa6e6a90d6926838e9648297;
   Tangent 0x6755b546bd5ecdad54830125945ebcf11749ff30a79abe014586232733cbb5a;
   Chord_neg 0x5fb293af30ec24877fcdfc76b4e2fe1d512dc5a1a85675280d2d80ba85be7bde;
   Tangent 0x88246dec0a2f5c1781c111b275131f55b126fd8e265fdde8ac3989cb1274622c;
   Tangent 0x907e6ca0df806efa454760a45d6531e8911524be961db28481f68854ccaa76f4;
   Chord 0x65aa85691aee4e00fc38309544a5890cb087836da9f9f38f27b2b31029e9a47b;
   Tangent 0xff3b9cef794d59af663742705c924d25096b6e5d78cb79b0c564211264074ab6;
   Tangent 0x28d1a2346878b14458df21150493c1bdbf85720bade0927bae4da94df6157f1;
   Tangent 0xb231c5c3633a4d5700f705351d2635f7b72cc9ce54b9cca358fe7c680fff87fd;
   Chord_neg 0x38b417ca4cbb532f46249af4ac8862f278b57ecdf8cf3ebea4f9fd9657768e7f;
   Tangent 0xb7d7dfd2dd60ebc633df4932f165679c28f925b5ac1c11cae367c92589a57d92;
   Tangent 0x75a74a2e990e1651dddec1e928034d4da24fb8884096c0933e6136f675561c39;
   Chord 0x78e4121c61c528cec73a1c573baaf5e75e0287f5d65da61a20ddb245ab1b8092;
   Tangent 0x2835932153b072f79e4c7e62b278c8fa650162e54b45fad45ff41a6df5f6914c;
   Tangent 0xb58c42b76682bbc037885c1ed2f3e5b40131bec35ee4b6cda64a96de9bcfe6f9;
   Tangent 0x1f2f4acc43dae13959e540e71b296215e4e36b14f5e0aad4a57be917c5b674d0;
   Chord_neg 0x9a1b4b351a71976545db9cf18d4d0d993ab38ca22d3ac906534f821385d5406d;
   Tangent 0x1d99561ee2c3ef21851d7cacb2ad51f830f56be32f8fb4b90e73a884b795d1ec;
   Tangent 0x9d5f07313eecd9367cf3f9a2a5d3a6d759fb70877d413e70b0313994808c13f6;
   Chord_neg 0x86ba109e0b28fa365fc5faee1cb320148e0510f2387acb8fd01d66563b1dcdfd;
   Tangent 0xe4d6753800c65953da70514bb94da9e03189de16c9fa3086112d99228ef1c1ba;
   Tangent 0xb25b45c9d1888fdc652a39c4c69383330a7096d97cf830a96872044ab68b58ef;
   Chord_neg 0xcfa74e52d54b5960e255d66aeff17b96874fa000bfa967c727c012ec7d00cd42;
   Tangent 0x970c455202313c987e004ba7b49db651abf429b9aec412ce907bb08f4fe11f63;
   Tangent 0xbc1f834adf3c42bbe146c8c3d35467280b791cb0b48a6177b8216e77b35688bc;
   Tangent 0x69c7268a22d38ac448b5d4da59aa1263f4e36fe3a979d8070bafbda702f14c96;
   Tangent 0xefc098f9b579deae6d9add81e6ad34c16f3269b81f2e67d38db6e7d5e17bd89f;
   Chord_neg 0xcb2234c63216d431e1f3ffcfb9656f0edd2bfc52c3f5ba2b3207d040546d15c5;
   Tangent 0xfcf1523b82f29c2de448f6d989ac55b2df8473bf03b0568f47ba0ecb0bdd77af;
   Tangent 0x490c1ce453ca3fd42de1dd36b26e293a111b987c7deccac16fb161186ca125a;
   Chord 0x3855482b858ff0489054da3a871a0829ec1abe06156a9c76d133a74243635ec5;
   Tangent 0x2e293dde18e6e71e43395520c05773ea44bad530ab495d611458e2ef46a7707b;
   Tangent 0xb06e1d39763a83a57fb67b677d4b44e12d71299c9b00785b1112809177da5c59;
   Tangent 0xb4a04407ebd4b6a776a7bcf22e2391ef82fcb38caa323d9d88f6b064243137c6;
   Chord 0x3744b45e624b5e48ff3377f3c07d5a48a62ed058e0e7960d23aeab1b85b0fbd3;
   Tangent 0x4287ac902cd67c7e2ad5bf1085a4583c2156251d39355ae4d1eab8ae366e1da1;
   Tangent 0xba3a1732d8f416c8d30c483abba55c6650234c26cc68ee2b4b5b9dbe94eac59a;
   Tangent 0x37775d936f164f8a84a47a9fb920758d15245f8c54c93178d1c4b5cafe4aa748;
   Tangent 0xa4a58801d8546d2f02a4050f921dab5916a5a5dd44176f76551f3edbafa49fab;
   Chord 0x55a917ba6b5d45d33ea48131d175456e0b896ca85247cc49de12458f2b48d505;
   Tangent 0x370e8f0214178e23448c3e2d2bf282e330be2f2967a412792452a0383df0b62f;
   Tangent 0x50cf9a814a661783423db02e4a5e06e785ff9a267cc04fa814022a9de2273796;
   Chord 0xbd812c5cc435aadb43c291fb04112777d6607f416d48ecca063d66c94d240d4e;
   Tangent 0x15ed51763216385857d89c815309ebe43b35f69a834afdb5cb1b2cd34ffcf80a;
   Tangent 0x9f0934630df8621d6a3c6c02ff916caccb0616bde61bfadbe8e0e5aed2afa375;
   Tangent 0x7e719a2b2ba07ae6d322194e523da6eea7ede79a3be1ffb3fc12bdee43de1167;
   Tangent 0x6041ba759eb9a87f0bf848fa65af818d3fcfffaa0c80943b90c7449163936b3e;
   Tangent 0xa6a11f381b330e0eceead13193ca089f4cdce3ed7c19bb361cec09cf272e6dea;
   Tangent 0xf46c2f33e3c1237340aa05dacbfd10f83f8c6aef5265ffc24313453af50d9f95;
   Tangent 0xddae855b43b0804eef5626ba19b0872ade9f6db236626d5f6b712d8485de4f93;
   Chord 0xcb8cc9e7e1610e7ae147495b1cb99346cd16d1fd1a824d2174a96dcdebcf443;
   Tangent 0x6eb0a4c6654101fc19a48b24493bdc36f8b080c3adf635bd66af6ee0b562f30c;
   Tangent 0xac1e02a703bd8a93b2db8c85f7ac70c3b53bcd4c94987a57983fbc4b5a5d100a;
   Tangent 0xc482786c25d5fd584d48080910827d7294258425db3b5a72dd6161b0da195533;
   Tangent 0xde5971e7caed1e1a33202f0e34d034130f711b0228874bc2328517f5f0919b93;
   Chord_neg 0x94de1b62a13fb94b31c34200a8203819a5523751338859763bac1580594354e1;
   Tangent 0x40516c4575656e7e08caba929e2cdb17434a15f0e0c560db36084174d2b0352a;
   Tangent 0x81337f491b421a272eae9a9fa15c04b2051f83c553346b8dd455a58b813e5244;
   Tangent 0x4daf9e6b8da1ac05ce09a71d6dd33bdec1c0aa06da4a71dd4b99776a9eee2fc7;
   Tangent 0x6ee32adf9bd905667f6e3c993ea80794603e47b190ab3d884da71f04e5688561;
   Chord_neg 0x1db62086d2280bae363dee77836ad59e0bfed1fdb0180fdacdd7f5cddd26e6cf;
   Tangent 0x1900957ab1c62a54d064b1d854f42fd14d64c316bfcacfccbb5073278cc6d4a0;
   Tangent 0x4b9aa67f5d122cd5f407198a72c371b23b17a20998fd57407e3c752f686252dc;
   Tangent 0xdc9daf63f537f348ad194598ae0480c4641e8a3c103f36df382db1fa4287e92e;
   Tangent 0xcfa5bf7570bc25f4bbc9b00fac3ea75055a13f3190124f9432626507528c15db;
   Tangent 0x6634246d4ee908374359e885d8a45bf4d7e5431c80d72438093404d17ecb459;
   Tangent 0x417f0cb3f44a2338ea7b03192a209625b1a7a86700fa2738e638739270143ae7;
   Tangent 0x7d9391121e69533105d5b7687e5d4955ed5debd8d790e24d70228c240958b609;
   Tangent 0x45822432cd567c9e3e8d2313405b46de3874f1463dbdbcdc0ab428b5e3f1397b;
   Chord_neg 0x8e7270b15ae85de67bec98d3d8c62ef58c0ad384ebbe8533817a850cfaf1aed5;
   Tangent 0x8474e018b6ac5b589f4749e1b38d6adc60a22c9eddd99afdd8e8d6044a4d4e98;
   Tangent 0x8df6afc453659936eaa14ccfa4cbd75a49199a5a40838876176e6da39d169bc2;
   Chord 0xff5caf8da8deb38d5833f1ef0047eaf5331a5e49802cb29843c99257ffab9b9e;
   Tangent 0xd8d4c3fb404a84f9a0146faf112eb5f7b8482cd2d86a4736dfdb78f4bd319ba9;
   Tangent 0x4026935e27333c9997ed5080700d1fe587b0a10e52f3668cb1ff2e53bef165a0;
   Tangent 0xe91116989d2c29ba1c402a42220bb6afafd7a1d89c0f7cb6f1415f6b30d72782;
   Chord 0xb9431bd34b02aced50f20c6257e46301867c5a638cdf4f97d6beaabeb0b9d37b;
   Tangent 0x9b5ce7f66fb114a71e108c251df1485ab6f06b1e5babf4062feaeef8390f74b;
   Tangent 0x39823a814982236ee6a11487982e893d758c2a2220c8b90ddb245fcf7db25e13;
   Chord 0x10a640b7d9b34b0c3af15c9366cd9415b3238d3589605fa5986a80406e67b91e;
   Tangent 0xed6c0e2fb9fb629821cc78012ed56697d5579c55a0cd895f5cdfe8775c5e21fc;
   Tangent 0xd3965a5a9eaa7091a9d00594371be33806d078928f6862337d390c3c94b22e2a;
   Chord_neg 0x989d5562e747261a6020d59d7d938a23a5a3bee44bce707feb3a761f414c7513;
   Tangent 0xc39fb3fa386e4c75b1c970948bbf5d83647f7fbe31914b8c887fcf6dcd147493;
   Tangent 0xb1206b720fe6033a76096668b533a8d975ea4bd5f808b41fb2e3bfd32efb5da5;
   Tangent 0xd4f8f728defb009b19611939ba09a25df988e2c20cd72404a3c9241682d9b1cd;
   Tangent 0xef067cf45af2b98df43ea206403afb8c285d5f02aebbcaddfa1986f723726cd3;
   Chord_neg 0x26e127b79affedcdeeec2b52d0b2828c3b05db91131849240fa85d21dcb4d902;
   Tangent 0x8e3fa477123b584f2d50b6f126ada57e27a8f2868ca91f8fd9ce85a1f920cf12;
   Tangent 0x3b49c33d536bdb2e909079c762d2053f34997113063cf72adcab7d7ddec9faa9;
   Chord 0x1f2ec02e6466b6d8c72f9d7f5d8ecd7033ab03d07baaaa43ce78c20480d033e3;
   Tangent 0x62c33e0b9150e0608b29448fb56bcef22513931a622e8631b498ae54b22262a2;
   Tangent 0x98706a34365fc35f0bf58006b8086053e00baca29dff996227401c8ccd9179d7;
   Tangent 0x754e3f3b8b39783ae1d98f7bed4a33a9cb83a2dcf3dd96af1ed15030279b19e9;
   Chord 0xe215962cd9f44461723913864b5fbe04968cf55c243b95b2dca2b4b3749e9513;
   Tangent 0x10e18fd20ebde51bc24c0d0d7726bf8172768691af8284e703a862e3cb39e08b;
   Tangent 0xcf8a0d4edd568904aecb3da1b921a0295a8dae93d6f44ae1794dea81ce43be88;
   Chord_neg 0xb943066b51606d8c7a85933d423ed4b73ef8d41330052d28600934bf15459293;
   Tangent 0x66b7745de248b97277a5615ff0bb462cf6e3c3e46ff057f7cce290d68ec3315a;
   Tangent 0x68723255cb589f934be2b1545a295f0260eea2b5de3a4a9e94f804ebd5eb2ac4;
   Chord 0x466f29056888918e158f06a3e32528123e32443c985d64841f467cd3e63b38ed;
   Tangent 0x805efb2463fb1d9717ad604768050ed07ec1782489ee3db07c023d3ebe49c5be;
   Tangent 0x6457233262f02f78f62a941998cf2f8f0cafc6dc68529823ba96db33339633b5;
   Chord_neg 0xdcc2daec8346af1cfeca154564757790bf9ce15a39f2cc4866ad395471701517;
   Tangent 0x69b6343cd46e3261cbfba536047eac826a6e5b069d0511ed854203a27dc2d6ad;
   Tangent 0x1d3fe586613e4a9815c3ccdffefedf1f536fdfc332940ccc5ee0db4890ef4566;
   Chord 0xe913bd3cc40444a7a62bd51a89b61dc8310e47f94c8f56737a7166af88bcf547;
   Tangent 0xf839838e5ea18c0c3efc4d8a88787af906a6abca84884bcf498e6353b96e4ae4;
   Tangent 0x2d5c87588d26f9c1cabb2ad6143c9145ca8a25067d0d0a1d1a941ac54f1e9ea8;
   Tangent 0xc9633d6252ea9df0eda9df6c2913cead0ac51d4cd58e74f5da5e89ea5d228b0e;
   Tangent 0xe271ab4ebd11fff0ec68a819b151c9ad16b2402b2fae6c2220fdd66672bd4063;
   Tangent 0xd36996ae84fdc0707b26792cdfab4100a637ffa1177d4a6e9b004ce2e8e408ee;
   Tangent 0x82f4035a2f943ba8d23b2fd98a9fa96b84620ffd6fb6ac5d80d2d89c955d0442;
   Chord 0x2359ffe39a24516f73e543d2e3166bb59ab008563c691ea500fce17ac2636f20;
   Tangent 0xa6c01e692657ecd5ec1e19f348128fa4f0c3b5b3a50e715e67edaaa8c56696d4;
   Tangent 0xd55caef44ef25aaed3132574aa0fe85d1f4c209a1baafa91991ce5cb60bc5173;
   Tangent 0xb34e522bc62416885f2e04725659c52d4ca4166ee58e1ab9c9d8154f3d9997eb;
   Chord_neg 0x96851d01f7c52d4d4054d62374be5022dc74134883f0fb1f914f3960fee83a2a;
   Tangent 0x5061f9b099a4ceac1276439800176691901c478015955fc1f9fb263abec3e757;
   Tangent 0x486c0f1742399bebc1b0e7cf3c2d9bc6da16d8f8c8136944e4e68d607fc7fb73;
   Chord_neg 0x6603975656b3234e973953b7f7f3d63ffa1c7a5e63e3f1358ac7e27a52b927d6;
   Tangent 0x4dfeeeb6f36c1a9ca52e3abae72aff21f3f5cfc1f1763a5463cd3f9419518c9b;
   Tangent 0x9054207d23fdd08ad96b38a135a128fb3ef816f72a9d5f1f52bdfd118ba86b4e;
   Tangent 0x9cfcb3c3101bca8208a3879277013a90fde33d7e52688c097ada6a913a3e7f3b;
   Chord 0xfab655ddb77e8b9989c2effc19e228c0c72121537ebd7ec3c6a7e4d048847d2b;
   Tangent 0xafd086d090b268755bdf504137173c8ccc46493d1d4201e9916a757f7b00dc70;
   Tangent 0xa5539e4c2a0cea6c4ede3f6173797a79cf2787f06f7e96e45e56c87a2e153893;
   Tangent 0x18338c0dbb8c4b2cc1c0beac6fe6aba94372e897eff057934f4f1ab15a411201;
   Tangent 0xfbd1ede4f87d76496c35e8768d3cc737302aacce3580b0b9925bbae37021f505;
   Tangent 0xe87d436bed4bff39a438dbc5e0f2a0ab3c426665c18963a027a08bf1b5481af2;
   Tangent 0x6ef473b5991356ad1b67f3fac06178cedf101127229b3473a62ebee5a858903e;
   Chord 0xc9dec5ff3cfd2b46ca46f2e1e2462aaf8500d13eaedffa5622486431a4defc0e;
   Tangent 0x98878284e0dad18c26ef85a11e64f28c050b597a75718c02f4b113be0d7f4566;
   Tangent 0x54872f7c6339d01480fd341fd5d2488dfd73172d95ed1155432e6e89d3398c0;
   Chord 0xb652eafe317f809ebd0d0babb231eba646f4bf5b1c3e02f7e018073689be34d1;
   Tangent 0xaeafae58242a90e531e26ad3754e9a553b88d37d07cae8e35fa4185aaeb6f158;
   Tangent 0x9b3f6216667833ff2a4bbcd12ac27afe4a51a2d3b07eb0e78d312eca1f7159a1;
   Tangent 0xf6c614511660dd458e525fbfb354aeb10fcf1e624c2f26086ba3729f78386cc0;
   Tangent 0x2fa523c29a33f7934f4e62b53aef395863ff174d933527da8937c26b6a5c9c60;
   Tangent 0x60610490a84968ba2933cdf68cdfad9b184ba2853935fd774bef4e64377ba489;
   Tangent 0x3b9e1fd3f452018f0e9c2ee69240a880ee147a50256c489c9338d92cacd255c2].

Section AnyField.
  Variable (F : Type) (f0 f1 : F) (add mul sub : F -> F -> F) (opp : F -> F) (div : F -> F -> F) (inv : F -> F).
  Hypothesis FT : field_theory f0 f1 add mul sub opp div inv (@eq F).
  Add Field any_field : FT.
  Lemma div_unique a c l : c <> f0 -> mul l c = a -> div a c = l.
  Proof. intros Hc <-. field. exact Hc. Qed.
  Lemma double_nz y : add f1 f1 <> f0 -> y <> f0 -> add y y <> f0.
  Proof.
    intros H2 Hy E. apply Hy. replace y with (div (add y y) (add f1 f1)) by (field; exact H2). rewrite E. field. exact H2.
  Qed.
  Lemma three_times a : mul (add (add f1 f1) f1) a = add (add a a) a.
  Proof. ring. Qed.
  Lemma flip_nz a c : a <> c -> sub c a <> f0.
  Proof. intros H E. apply H. replace a with (sub c (sub c a)) by ring. rewrite E. ring. Qed.
  Lemma chord_flip l a c u w : mul l (sub a c) = sub u w -> mul l (sub c a) = sub w u.
  Proof. intros E. replace (mul l (sub c a)) with (opp (mul l (sub a c))) by ring. rewrite E. ring. Qed.
End AnyField.
Notation qthird := (third FF qmul qsub).
Lemma m_fred z : m (fred z) = m z.
Proof. apply mk_eq. rewrite fred_mod. apply Z.mod_mod. pose proof p_big; lia. Qed.
Lemma m_shift z k : m (z + k * p_field) = m z.
Proof. apply mk_eq. apply Z.mod_add. pose proof p_big; lia. Qed.
Lemma abs_line l x1 y1 x2 : abs (line l x1 y1 x2) = qthird (m l) (m x1) (m y1) (m x2).
Proof.
  unfold line, third. cbv zeta. cbn [abs]. rewrite Z.square_spec.
  assert (E : m (fred (l * l + (p_field + p_field - x1 - x2))) = qsub (qsub (qmul (m l) (m l)) (m x1)) (m x2)).
  { rewrite m_fred. replace (l * l + (p_field + p_field - x1 - x2)) with (l * l - x1 - x2 + 2 * p_field) by ring.
    rewrite m_shift, !mk_sub, mk_mul. reflexivity. }
  set (x3 := fred (l * l + (p_field + p_field - x1 - x2))) in *. clearbody x3. rewrite <- E. f_equal.
  rewrite m_fred. replace (l * (x1 + p_field - x3) + (p_field - y1)) with (l * (x1 - x3) - y1 + (l + 1) * p_field) by ring.
  rewrite m_shift, mk_sub, mk_mul, mk_sub. reflexivity.
Qed.
Lemma conc_line l x1 y1 x2 : conc (abs (line l x1 y1 x2)) = line l x1 y1 x2.
Proof. unfold line. cbv zeta. cbn [abs conc]. rewrite !val_mk, !Z.mod_small by apply fred_range. reflexivity. Qed.
Notation qarg f := (f FF q0 q1 qadd qmul qsub qopp qdiv qinv qfield) (only parsing).
Lemma tangent_spec l P R : on_curve P -> tangent l P = Some R -> ec_add P P = R.
Proof.
  intros O. destruct P as [|x y]; [discriminate|]. cbn [tangent]. rewrite Z.square_spec.
  destruct (Z.eqb_spec (fred (l * (y + y))) (fred (3 * (x * x)))) as [E|]; [|discriminate]. intros [= <-].
  rewrite ec_add_conc by exact O. pose proof (abs_on _ O) as OA. cbn [abs] in OA |- *.
  assert (Y : m y <> q0) by exact (y_nz FF q0 q1 qadd qmul qsub qopp qdiv qinv qfield qb q_no2 _ _ OA).
  assert (Y2 : qadd (m y) (m y) <> q0) by exact (qarg double_nz (m y) q_two Y).
  cbn [aadd]. destruct (qdec (m x) (m x)) as [_|N]; [|congruence]. destruct (qdec (qadd (m y) (m y)) q0) as [N|_]; [contradiction|].
  rewrite (qarg div_unique _ _ (m l)); [rewrite <- abs_line; apply conc_line|exact Y2|].
  apply (f_equal m) in E. rewrite !m_fred, !mk_mul, mk_add in E. rewrite E.
  replace (m 3) with (qadd (qadd q1 q1) q1) by (unfold F1; rewrite <- !mk_add; reflexivity). apply (qarg three_times).
Qed.
Lemma chord_spec l P Q R : on_curve P -> on_curve Q -> chord l P Q = Some R -> ec_add P Q = R.
Proof.
  intros OP OQ. destruct P as [|x1 y1], Q as [|x2 y2]; try discriminate. cbn [chord].
  destruct (Z.eqb_spec x1 x2) as [|N]; [discriminate|]. cbn [negb andb].
  destruct (Z.eqb_spec (fred (l * (x1 + p_field - x2))) (fred (y1 + p_field - y2))) as [E|]; [|discriminate]. intros [= <-].
  rewrite ec_add_conc by assumption. cbn [abs aadd].
  destruct (qdec (m x1) (m x2)) as [X|X].
  { exfalso. apply N. apply mk_eq in X. destruct OP as (P1 & _), OQ as (Q1 & _). unfold in_field in P1, Q1. rewrite secp_p_field in P1, Q1.
    rewrite !Z.mod_small in X by assumption. exact X. }
  rewrite (qarg div_unique _ _ (m l)); [rewrite <- abs_line; apply conc_line| |].
  - exact (qarg flip_nz _ _ X).
  - apply (f_equal m) in E. rewrite !m_fred in E.
    replace (l * (x1 + p_field - x2)) with (l * (x1 - x2) + l * p_field) in E by ring.
    replace (y1 + p_field - y2) with (y1 - y2 + 1 * p_field) in E by ring.
    rewrite !m_shift, mk_mul, !mk_sub in E.
    exact (qarg chord_flip _ _ _ _ _ E).
Qed.
Lemma along_spec ls : forall P z R, 0 < z -> P = ec_mul z G -> along ls P = Some R -> 0 < along_value ls z -> R = ec_mul (along_value ls z) G.
Proof.
  induction ls as [|s ls IH]; intros P z R Hz EP; cbn [along along_value]; [intros [= <-] _; exact EP|].
  assert (O : on_curve P) by (rewrite EP; apply ec_mul_on, G_on).
  destruct s as [l|l|l].
  - destruct (tangent l P) as [P'|] eqn:T; [|discriminate]. apply tangent_spec in T; [|exact O]. apply IH; [lia|].
    rewrite <- T, EP. replace (2 * z) with (z + z) by lia. symmetry. apply ec_mul_add; [lia|lia|apply G_on].
  - destruct (chord l P G) as [P'|] eqn:T; [|discriminate]. apply chord_spec in T; [|exact O|apply G_on]. apply IH; [lia|].
    rewrite <- T, EP, ec_mul_add, ec_mul_1 by (try lia; apply G_on). reflexivity.
  - destruct (chord l P (ec_neg G)) as [P'|] eqn:T; [|discriminate].
    destruct (Z.eq_dec z 1) as [->|N].
    { exfalso. rewrite ec_mul_1 in EP by apply G_on. subst P. unfold G in T. cbn [ec_neg chord] in T. rewrite Z.eqb_refl in T. discriminate T. }
    apply chord_spec in T; [|exact O|apply ec_neg_on, G_on].
    apply IH; [lia|]. rewrite <- T, EP. replace z with (z - 1 + 1) at 1 by lia.
    rewrite ec_mul_add, ec_mul_1, ec_assoc, ec_add_neg, ec_inf_r by (try lia; auto using ec_mul_on, ec_neg_on, G_on). reflexivity.
Qed.
Lemma along_G : along G_slopes G = Some (ec_neg G).
Proof. vm_compute. reflexivity. Qed.
Lemma neg_order n : 0 < n -> ec_neg G = ec_mul (n - 1) G -> ec_mul n G = Inf.
Proof.
  intros Hn S. replace n with ((n - 1) + 1) by lia. rewrite ec_mul_add by (try lia; apply G_on).
  rewrite <- S, ec_mul_1 by apply G_on. rewrite ec_comm by auto using ec_neg_on, G_on. apply ec_add_neg, G_on.
Qed.
Lemma nG : ec_mul G_order G = Inf.
Proof.
  assert (V : along_value G_slopes 1 = G_order - 1) by (vm_compute; reflexivity).
  pose proof n_bounds as B.
  assert (S : ec_neg G = ec_mul (G_order - 1) G).
  { rewrite <- V. apply (along_spec G_slopes G 1); [lia|symmetry; apply ec_mul_1, G_on|exact along_G|rewrite V; lia]. }
  apply neg_order; [lia|exact S].
Qed.
Lemma ec_mul_order k : 0 < k < G_order -> ec_mul k G <> Inf.
Proof.
  intros Hk E. pose proof n_prime as Hn.
  assert (rel_prime k G_order) as RP.
  { apply rel_prime_le_prime; [exact Hn|lia]. }
  apply rel_prime_bezout in RP. destruct RP as [u w B].
  (* make both coefficients non-negative *)
  set (u' := u mod G_order).
  assert (U : 0 <= u' < G_order) by (apply Z.mod_pos_bound; lia).
  assert (X : exists c, u' * k = 1 + c * G_order).
  { exists (- w - (u / G_order) * k). unfold u'. rewrite Z.mod_eq by lia. rewrite <- B. ring. }
  destruct X as [c X]. assert (C : 0 <= c) by nia.
  assert (Y : ec_mul (u' * k) G = Inf).
  { rewrite ec_mul_mul, E by (try lia; apply G_on). apply ec_mul_inf. }
  rewrite X in Y. rewrite ec_mul_add in Y by (try nia; apply G_on).
  rewrite (ec_mul_mul c) in Y by (try lia; apply G_on). rewrite nG, ec_mul_inf, ec_inf_r, ec_mul_1 in Y by (try apply ec_mul_on; apply G_on).
  discriminate Y.
Qed.
Lemma ec_mul_G_mod k : 0 <= k -> ec_mul (k mod G_order) G = ec_mul k G.
Proof.
  intros Hk. pose proof n_bounds as B. rewrite (Z.div_mod k G_order) at 2 by lia.
  assert (0 <= k / G_order) by (apply Z.div_pos; lia).
  pose proof (Z.mod_pos_bound k G_order ltac:(lia)).
  rewrite ec_mul_add by (try nia; apply G_on). rewrite (Z.mul_comm G_order), ec_mul_mul, nG, ec_mul_inf, ec_inf_l by (try lia; try apply ec_mul_on; apply G_on).
  reflexivity.
Qed.
Lemma ec_mul_G_inj a c : 0 <= a < G_order -> 0 <= c < G_order -> ec_mul a G = ec_mul c G -> a = c.
Proof.
  assert (X : forall a c, 0 <= a <= c -> c < G_order -> ec_mul a G = ec_mul c G -> a = c).
  { intros a' c' H1 H2 E. destruct (Z.eq_dec a' c') as [|N]; [assumption|exfalso].
    apply (ec_mul_order (c' - a')); [lia|]. apply (ec_cancel (ec_mul a' G)); auto using ec_mul_on, G_on; [exact I|].
    rewrite <- ec_mul_add by (try lia; apply G_on). rewrite ec_inf_r by (apply ec_mul_on, G_on).
    replace (a' + (c' - a')) with c' by lia. symmetry. exact E. }
  intros Ha Hc E. destruct (Z.le_ge_cases a c); [apply X|symmetry; apply X]; trivial; try lia. symmetry; exact E.
Qed.
