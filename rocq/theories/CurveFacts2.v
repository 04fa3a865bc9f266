(** * CurveFacts2: the whole curve is generated by G; scalar multiplication
    modulo the order; the textbook relations; square roots and encodings. *)
From Coq Require Import Lia ZifyBool ZifyNat ZifyN Znumtheory Zpow_facts Ring Field.
From Verif Require Import Py Spec PyFacts Curve SpecCurve Primes ECGroup CurveFacts.

(** ** Cofactor 1 *)
Lemma generated_nat n : Z.of_nat n = G_order ->
  forall P, on_curve P -> exists k, 0 <= k < G_order /\ P = ec_mul k G.
Proof.
  intros Hn P OP.
  assert (C : 1 + 2 * p_field < 3 * G_order) by (vm_compute; reflexivity).
  assert (O : G_order = 2 * (G_order / 2) + 1) by (vm_compute; reflexivity).
  assert (B : 0 < G_order / 2) by (vm_compute; reflexivity).
  assert (BP : 0 < p_field) by (vm_compute; reflexivity).
  assert (X : forall Q, qon Q -> exists k, (k < n)%nat /\ Q = qamul (N.of_nat k) (abs G)).
  { apply q_generated.
    - apply abs_on, G_on.
    - revert O B. rewrite <- Hn. generalize (Z.of_nat n / 2). intros h O B.
      exists (Z.to_nat h). lia.
    - apply conc_inj. rewrite <- ec_mul_conc by apply G_on. rewrite nat_N_Z, Hn, nG. reflexivity.
    - intros k Hk E. apply (ec_mul_order (Z.of_nat k)).
      + rewrite <- Hn. lia.
      + rewrite <- nat_N_Z, ec_mul_conc, E by apply G_on. reflexivity.
    - rewrite elems_length. revert C BP. rewrite <- Hn. generalize p_field. intros. lia. }
  destruct (X (abs P)) as [k [Hk E]]; [apply abs_on, OP|].
  exists (Z.of_nat k). split; [rewrite <- Hn; lia|].
  rewrite <- nat_N_Z, ec_mul_conc, <- E by apply G_on. symmetry. apply conc_abs, OP.
Qed.
Lemma generated_by_G P : on_curve P -> exists k, 0 <= k < G_order /\ P = ec_mul k G.
Proof.
  apply (generated_nat (Z.to_nat G_order)). apply Z2Nat.id. vm_compute. discriminate.
Qed.

Lemma order_kills P : on_curve P -> ec_mul G_order P = Inf.
Proof.
  intros OP. destruct (generated_by_G P OP) as [k [Hk ->]]. pose proof n_bounds.
  rewrite <- ec_mul_mul by (try lia; apply G_on). rewrite Z.mul_comm, ec_mul_mul, nG by (try lia; apply G_on).
  apply ec_mul_inf.
Qed.
Lemma ec_mul_mod_nonneg k P : 0 <= k -> on_curve P -> ec_mul (k mod G_order) P = ec_mul k P.
Proof.
  intros Hk OP. pose proof n_bounds as B. rewrite (Z.div_mod k G_order) at 2 by lia.
  assert (0 <= k / G_order) by (apply Z.div_pos; lia).
  pose proof (Z.mod_pos_bound k G_order ltac:(lia)).
  rewrite ec_mul_add by (try nia; exact OP). rewrite (Z.mul_comm G_order), ec_mul_mul, order_kills, ec_mul_inf, ec_inf_l by (try lia; try apply ec_mul_on; exact OP).
  reflexivity.
Qed.
(** For every integer scalar, negative ones included. *)
Lemma ec_mul_mod k P : on_curve P -> ec_mul (k mod G_order) P = ec_mul k P.
Proof.
  intros OP. destruct (Z.le_gt_cases 0 k) as [H|H]; [apply ec_mul_mod_nonneg; assumption|].
  pose proof n_bounds as B. set (j := - k). replace k with (- j) by lia. assert (0 < j) by lia.
  rewrite ec_mul_opp by lia. pose proof (Z.mod_pos_bound (- j) G_order ltac:(lia)) as R.
  (* add j P on the left of both sides *)
  apply (ec_cancel (ec_mul j P)); auto using ec_mul_on, ec_neg_on.
  rewrite <- ec_mul_add by (try lia; exact OP).
  assert (L : forall i, ec_mul (Z.of_N i) (ec_neg P) = ec_neg (ec_mul (Z.of_N i) P)).
  { intros i. induction i as [|i IH] using N.peano_ind; [reflexivity|].
    rewrite N2Z.inj_succ, <- Z.add_1_l, !ec_mul_add, IH, !ec_mul_1 by (try lia; auto using ec_neg_on).
    set (Q := ec_mul (Z.of_N i) P). assert (OQ : on_curve Q) by apply ec_mul_on, OP. clearbody Q.
    apply (ec_cancel (ec_add P Q)); auto using ec_add_on, ec_neg_on.
    rewrite (ec_add_neg (ec_add P Q)) by auto using ec_add_on.
    rewrite (ec_comm P Q) by assumption. rewrite ec_assoc by auto using ec_add_on, ec_neg_on.
    rewrite <- (ec_assoc P (ec_neg P)), ec_add_neg, ec_inf_l by auto using ec_neg_on.
    apply ec_add_neg, OQ. }
  rewrite <- (Z2N.id j) at 4 by lia. rewrite L, Z2N.id, ec_add_neg by (try lia; apply ec_mul_on, OP).
  rewrite <- ec_mul_mod_nonneg by (try lia; exact OP).
  rewrite Zplus_mod_idemp_r. replace (j + - j) with 0 by lia. reflexivity.
Qed.
Lemma ec_mul_comm a c P : 0 <= a -> 0 <= c -> on_curve P -> ec_mul a (ec_mul c P) = ec_mul c (ec_mul a P).
Proof. intros Ha Hc OP. rewrite <- !ec_mul_mul by assumption. f_equal. apply Z.mul_comm. Qed.

(** ** The textbook relations *)
Lemma conc_aff x y : Aff x y = conc (abs (Aff x y)) <-> in_field x /\ in_field y.
Proof.
  cbn [abs conc]. rewrite !val_mk. unfold in_field. rewrite secp_p_field. pose proof p_big. split.
  - intros E. injection E as Ex Ey. rewrite Ex, Ey. split; apply Z.mod_pos_bound; lia.
  - intros [Hx Hy]. rewrite !Z.mod_small by assumption. reflexivity.
Qed.
Lemma abs_inj P Q : on_curve P -> on_curve Q -> abs P = abs Q -> P = Q.
Proof. intros OP OQ E. rewrite <- (conc_abs P OP), <- (conc_abs Q OQ), E. reflexivity. Qed.

Lemma div_eq a l d : d <> q0 -> qmul l d = a -> qdiv a d = l.
Proof.
  intros Hd <-. unfold Fdiv. rewrite <- (F_R qfield).(Rmul_assoc), ((F_R qfield).(Rmul_comm) d).
  rewrite (Finv_l qfield) by exact Hd. rewrite (F_R qfield).(Rmul_comm). apply (F_R qfield).(Rmul_1_l).
Qed.
Lemma q_sub0 a c : qsub a c = q0 -> a = c.
Proof. exact (sub_0 FF q0 q1 qadd qmul qsub qopp qdiv qinv qfield a c). Qed.
Lemma in_field_m x y : in_field x -> in_field y -> m x = m y -> x = y.
Proof.
  unfold in_field. rewrite secp_p_field. intros Hx Hy E. apply mk_eq in E. rewrite !Z.mod_small in E by assumption. exact E.
Qed.
Lemma m0 : q0 = m 0. Proof. reflexivity. Qed.

Lemma third_eq l x1 y1 x2 x3 y3 : in_field x3 -> in_field y3 ->
  cong x3 (l * l - x1 - x2) -> cong y3 (l * (x1 - x3) - y1) ->
  conc (third FF qmul qsub (m l) (m x1) (m y1) (m x2)) = Aff x3 y3.
Proof.
  unfold third. cbv zeta. cbn [conc]. intros F3 G3 H3 H4. apply m_inj in H3, H4.
  replace (qsub (qsub (qmul (m l) (m l)) (m x1)) (m x2)) with (m x3) by (rewrite H3, !mk_sub, mk_mul; reflexivity).
  replace (qsub (qmul (m l) (qsub (m x1) (m x3))) (m y1)) with (m y3) by (rewrite H4, mk_sub, mk_mul, mk_sub; reflexivity).
  rewrite !val_mk. unfold in_field in *. rewrite secp_p_field in *. rewrite !Z.mod_small by assumption. reflexivity.
Qed.

Lemma ec_sum_sound P Q R : on_curve P -> on_curve Q -> ec_sum P Q R -> R = ec_add P Q.
Proof.
  intros OP OQ H. destruct H as [Q|P|x y1 y2 H|x1 y1 x2 y2 l x3 y3 N H1 F3 H3 G3 H4|x y l x3 y3 N H1 F3 H3 G3 H4].
  - symmetry. apply ec_inf_l, OQ.
  - symmetry. apply ec_inf_r, OP.
  - rewrite ec_add_conc by assumption. cbn [abs aadd]. destruct (qdec (m x) (m x)) as [_|N]; [|congruence].
    rewrite <- mk_add. destruct (qdec (m (y1 + y2)) q0) as [_|N]; [reflexivity|].
    exfalso. apply N. rewrite m0. apply m_inj. exact H.
  - rewrite ec_add_conc by assumption. cbn [abs aadd].
    destruct OP as (Fx1 & Fy1 & _), OQ as (Fx2 & Fy2 & _).
    destruct (qdec (m x1) (m x2)) as [E|_]; [exfalso; apply N; apply in_field_m; assumption|].
    rewrite (div_eq (qsub (m y2) (m y1)) (m l)).
    + symmetry. apply third_eq; assumption.
    + intros E. apply q_sub0 in E. apply N. symmetry. apply in_field_m; assumption.
    + rewrite <- !mk_sub, <- mk_mul. apply m_inj. exact H1.
  - rewrite ec_add_conc by assumption. cbn [abs aadd].
    destruct (qdec (m x) (m x)) as [_|N']; [|congruence].
    destruct (qdec (qadd (m y) (m y)) q0) as [E|D].
    { exfalso. apply N. rewrite <- mk_add, m0 in E. apply m_inj in E. exact E. }
    rewrite (div_eq _ (m l)).
    + symmetry. apply third_eq; assumption.
    + exact D.
    + rewrite <- !mk_mul, <- !mk_add, <- mk_mul. apply m_inj.
      replace (l * (y + y)) with (l * (2 * y)) by ring. replace (x * x + x * x + x * x) with (3 * (x * x)) by ring. exact H1.
Qed.

Lemma div_mul a d : d <> q0 -> qmul (qdiv a d) d = a.
Proof.
  intros Hd. unfold Fdiv. rewrite <- (F_R qfield).(Rmul_assoc). rewrite (Finv_l qfield) by exact Hd.
  rewrite (F_R qfield).(Rmul_comm). apply (F_R qfield).(Rmul_1_l).
Qed.
Lemma q_same_x x y1 y2 : qon (AAff FF x y1) -> qon (AAff FF x y2) -> y1 = y2 \/ qadd y1 y2 = q0.
Proof. exact (same_x FF q0 q1 qadd qmul qsub qopp qdiv qinv qfield qdec qb x y1 y2). Qed.
Lemma q_sub_nz a c : a <> c -> qsub a c <> q0.
Proof. exact (sub_nz FF q0 q1 qadd qmul qsub qopp qdiv qinv qfield a c). Qed.

Lemma conc_third l x1 y1 x2 : exists x3 y3, conc (third FF qmul qsub l (m x1) (m y1) (m x2)) = Aff x3 y3 /\
  in_field x3 /\ in_field y3 /\ cong x3 (v l * v l - x1 - x2) /\ cong y3 (v l * (x1 - x3) - y1).
Proof.
  unfold third. cbv zeta. cbn [conc]. eexists _, _. split; [reflexivity|].
  split; [apply in_field_val|]. split; [apply in_field_val|]. split; apply m_inj; rewrite mk_val.
  - rewrite !mk_sub, mk_mul, mk_val. reflexivity.
  - rewrite mk_sub, mk_mul, mk_sub, !mk_val. reflexivity.
Qed.
Lemma ec_sum_complete P Q : on_curve P -> on_curve Q -> ec_sum P Q (ec_add P Q).
Proof.
  intros OP OQ. destruct P as [|x1 y1]; [rewrite ec_inf_l by exact OQ; constructor|].
  destruct Q as [|x2 y2]; [rewrite ec_inf_r by exact OP; constructor|].
  rewrite ec_add_conc by assumption. pose proof (abs_on _ OP) as AP. pose proof (abs_on _ OQ) as AQ.
  destruct OP as (Fx1 & Fy1 & _), OQ as (Fx2 & Fy2 & _). cbn [abs] in *. cbn [aadd].
  destruct (qdec (m x1) (m x2)) as [E|N].
  - assert (x1 = x2) by (apply in_field_m; assumption). subst x2.
    destruct (qdec (qadd (m y1) (m y2)) q0) as [D|D].
    + cbn [conc]. apply sum_opposite. apply m_inj. rewrite mk_add, D. reflexivity.
    + destruct (q_same_x _ _ _ AP AQ) as [Y|Y]; [|contradiction].
      assert (y1 = y2) by (apply in_field_m; assumption). subst y2.
      set (l := qdiv _ _). destruct (conc_third l x1 y1 x1) as (x3 & y3 & C & F3 & G3 & H3 & H4). rewrite C.
      apply sum_tangent with (l := v l); trivial.
      * intros Z. apply D. rewrite <- mk_add, m0. apply m_inj. exact Z.
      * apply m_inj. rewrite mk_mul, mk_val. replace (2 * y1) with (y1 + y1) by ring. rewrite mk_add.
        unfold l. rewrite div_mul by exact D. replace (3 * (x1 * x1)) with (x1 * x1 + x1 * x1 + x1 * x1) by ring.
        rewrite !mk_add, !mk_mul. reflexivity.
  - set (l := qdiv _ _). destruct (conc_third l x1 y1 x2) as (x3 & y3 & C & F3 & G3 & H3 & H4). rewrite C.
    apply sum_chord with (l := v l); trivial; [intros ->; apply N; reflexivity|].
    apply m_inj. rewrite mk_mul, mk_val, mk_sub. unfold l. rewrite div_mul; [rewrite mk_sub; reflexivity|].
    apply q_sub_nz. congruence.
Qed.
Lemma ec_sum_iff P Q R : on_curve P -> on_curve Q -> (ec_sum P Q R <-> R = ec_add P Q).
Proof.
  intros OP OQ. split; [apply ec_sum_sound; assumption|intros ->; apply ec_sum_complete; assumption].
Qed.
Lemma ec_multiple_iff k P R : on_curve P -> (ec_multiple k P R <-> R = ec_mul (Z.of_N k) P).
Proof.
  intros OP. split.
  - intros H. induction H as [P|k P Q R H IH S]; [reflexivity|].
    specialize (IH OP). subst Q. apply ec_sum_sound in S; [|exact OP|apply ec_mul_on, OP].
    rewrite S, N2Z.inj_succ, <- Z.add_1_l, ec_mul_add, ec_mul_1 by (try lia; exact OP). reflexivity.
  - intros ->. induction k as [|k IH] using N.peano_ind; [constructor|].
    apply multiple_S with (1 := IH). apply ec_sum_iff; [exact OP|apply ec_mul_on, OP|].
    rewrite N2Z.inj_succ, <- Z.add_1_l, ec_mul_add, ec_mul_1 by (try lia; exact OP). reflexivity.
Qed.
