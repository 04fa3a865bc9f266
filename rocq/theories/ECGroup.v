(** * ECGroup: the group law of y^2 = x^3 + b over a field in which no point
    has y = 0, textbook affine formulas and the complete projective formulas
    of Renes, Costello and Batina. *)
From Coq Require Import Ring Field Setoid Arith NArith List Lia.
Import ListNotations.

Section EC.
  Variable F : Type.
  Variables (f0 f1 : F) (fadd fmul fsub : F -> F -> F) (fopp : F -> F)
            (fdiv : F -> F -> F) (finv : F -> F).
  Variable Fth : field_theory f0 f1 fadd fmul fsub fopp fdiv finv (@eq F).
  Variable feq_dec : forall a b : F, {a = b} + {a <> b}.
  Add Field Ff : Fth.
  Infix "+" := fadd. Infix "*" := fmul. Infix "-" := fsub. Infix "/" := fdiv.
  Notation "- x" := (fopp x).
  Notation "0" := f0. Notation "1" := f1.
  Variable b : F.
  Variable two_nz : 1 + 1 <> 0.
  Variable no2 : forall x, x * x * x + b <> 0.

  (** ** Field facts *)
  Lemma mul_0 a c : a * c = 0 -> a = 0 \/ c = 0.
  Proof.
    intros H. destruct (feq_dec a 0) as [E|E]; [left; exact E|right].
    replace c with (finv a * (a * c)) by (field; exact E). rewrite H. ring.
  Qed.
  Lemma mul_nz a c : a <> 0 -> c <> 0 -> a * c <> 0.
  Proof. intros Ha Hc H. destruct (mul_0 _ _ H); contradiction. Qed.
  Lemma sub_0 a c : a - c = 0 -> a = c.
  Proof. intros H. replace a with (a - c + c) by ring. rewrite H. ring. Qed.
  Lemma sub_nz a c : a <> c -> a - c <> 0.
  Proof. intros H E. apply H, sub_0, E. Qed.
  Lemma mul_cancel a c d : a <> 0 -> a * c = a * d -> c = d.
  Proof.
    intros Ha H. apply sub_0. assert (E : a * (c - d) = 0) by (replace (a * (c - d)) with (a * c - a * d) by ring; rewrite H; ring).
    destruct (mul_0 _ _ E); [contradiction|assumption].
  Qed.

  (** ** Affine points *)
  Inductive apt := AInf | AAff (x y : F).
  Definition on (P : apt) : Prop :=
    match P with AInf => True | AAff x y => y * y = x * x * x + b end.
  Definition aneg (P : apt) : apt := match P with AInf => AInf | AAff x y => AAff x (- y) end.
  Definition third (l x1 y1 x2 : F) : apt :=
    let x3 := l * l - x1 - x2 in AAff x3 (l * (x1 - x3) - y1).
  Definition aadd (P Q : apt) : apt :=
    match P, Q with
    | AInf, _ => Q
    | _, AInf => P
    | AAff x1 y1, AAff x2 y2 =>
        if feq_dec x1 x2 then
          if feq_dec (y1 + y2) 0 then AInf
          else third ((x1 * x1 + x1 * x1 + x1 * x1) / (y1 + y1)) x1 y1 x2
        else third ((y2 - y1) / (x2 - x1)) x1 y1 x2
    end.

  Lemma y_nz x y : on (AAff x y) -> y <> 0.
  Proof. cbn. intros H E. apply (no2 x). rewrite <- H, E. ring. Qed.
  Lemma same_x x y1 y2 : on (AAff x y1) -> on (AAff x y2) -> y1 = y2 \/ y1 + y2 = 0.
  Proof.
    cbn. intros H1 H2. assert (E : (y1 - y2) * (y1 + y2) = 0).
    { replace ((y1 - y2) * (y1 + y2)) with (y1 * y1 - y2 * y2) by ring. rewrite H1, H2. ring. }
    destruct (mul_0 _ _ E) as [E'|E']; [left; apply sub_0; exact E'|right; exact E'].
  Qed.
  Lemma double_nz y : y <> 0 -> y + y <> 0.
  Proof. intros H. replace (y + y) with ((1 + 1) * y) by ring. apply mul_nz; assumption. Qed.

  Lemma on_neg P : on P -> on (aneg P).
  Proof. destruct P as [|x y]; cbn; [trivial|]. intros H. rewrite <- H. ring. Qed.

  Lemma on_chord x1 y1 x2 y2 : x1 <> x2 ->
    y1 * y1 = x1 * x1 * x1 + b -> y2 * y2 = x2 * x2 * x2 + b ->
    on (third ((y2 - y1) / (x2 - x1)) x1 y1 x2).
  Proof.
    intros Hx H1 H2. assert (Hd : x2 - x1 <> 0) by (apply sub_nz; congruence).
    unfold third; cbn.
    assert (Eb : b = y1 * y1 - x1 * x1 * x1) by (rewrite H1; ring).
    assert (E2 : y2 * y2 = x2 * x2 * x2 + (y1 * y1 - x1 * x1 * x1)) by (rewrite H2, Eb; ring).
    rewrite Eb. field_simplify_eq; [|exact Hd]. 
    ring [E2].
  Qed.
  Lemma on_tangent x y : y <> 0 -> y * y = x * x * x + b ->
    on (third ((x * x + x * x + x * x) / (y + y)) x y x).
  Proof.
    intros Hy H. pose proof (double_nz y Hy) as Hd. unfold third; cbn.
    assert (Eb : b = y * y - x * x * x) by (rewrite H; ring). rewrite Eb.
    field. exact Hd.
  Qed.
  Lemma on_add P Q : on P -> on Q -> on (aadd P Q).
  Proof.
    destruct P as [|x1 y1], Q as [|x2 y2]; cbn [aadd]; trivial. intros H1 H2.
    destruct (feq_dec x1 x2) as [E|E].
    - subst x2. destruct (feq_dec (y1 + y2) 0) as [Ey|Ey]; [exact I|].
      apply on_tangent; [|exact H1]. apply (y_nz x1); exact H1.
    - apply on_chord; assumption.
  Qed.

  (** ** Complete projective addition *)
  Definition th x := x + x + x.
  Definition b3 := th b.
  Definition ppt := (F * F * F)%type.
  Definition padd (P Q : ppt) : ppt :=
    let '(X1, Y1, Z1) := P in
    let '(X2, Y2, Z2) := Q in
    let xx := X1 * X2 in
    let yy := Y1 * Y2 in
    let zz := b3 * (Z1 * Z2) in
    let xy := X1 * Y2 + X2 * Y1 in
    let yz := Y1 * Z2 + Y2 * Z1 in
    let xz := X1 * Z2 + X2 * Z1 in
    let xx3 := xx + xx + xx in
    let m := yy - zz in
    let a := yy + zz in
    let bxz := b3 * xz in
    (xy * m - yz * bxz, a * m + xx3 * bxz, yz * a + xx3 * xy).

  (** [(X,Y,Z)] are projective coordinates of [P]. *)
  Definition repr (t : ppt) (P : apt) : Prop :=
    let '(X, Y, Z) := t in
    match P with
    | AInf => X = 0 /\ Z = 0 /\ Y <> 0
    | AAff x y => Z <> 0 /\ X = x * Z /\ Y = y * Z
    end.

  (** Doubling, with fewer multiplications (only used to compute the order of the
      generator quickly). *)
  Definition pdbl (P : ppt) : ppt :=
    let '(X, Y, Z) := P in
    let yy := Y * Y in
    let zz := b3 * (Z * Z) in
    let xy := X * Y in
    let m := yy - (zz + zz + zz) in
    let c := yy * zz in let c2 := c + c in let c4 := c2 + c2 in
    let w := Y * Z * yy in let w2 := w + w in let w4 := w2 + w2 in
    ((xy + xy) * m, m * (yy + zz) + (c4 + c4), w4 + w4).
  Lemma pdbl_padd t P : on P -> repr t P -> pdbl t = padd t t.
  Proof.
    destruct t as [[X Y] Z]. intros O. destruct P as [|x y]; cbn [repr pdbl padd]; unfold b3, th.
    - intros (-> & -> & _). f_equal; [f_equal|]; ring.
    - intros (_ & -> & ->). cbn [on] in O. assert (Eb : b = y * y - x * x * x) by (rewrite O; ring). rewrite Eb. f_equal; [f_equal|]; ring.
  Qed.

  Lemma repr_inf_inf t1 t2 : repr t1 AInf -> repr t2 AInf -> repr (padd t1 t2) AInf.
  Proof.
    destruct t1 as [[X1 Y1] Z1], t2 as [[X2 Y2] Z2]. cbn.
    intros (-> & -> & H1) (-> & -> & H2). repeat split; try (unfold b3, th; ring).
    replace (_ + _) with ((Y1 * Y2) * (Y1 * Y2)) by (unfold b3, th; ring).
    repeat apply mul_nz; assumption.
  Qed.
  Lemma repr_inf_l t1 t2 x y : on (AAff x y) ->
    repr t1 AInf -> repr t2 (AAff x y) -> repr (padd t1 t2) (AAff x y).
  Proof.
    intros Hon. pose proof (y_nz _ _ Hon) as Hy.
    destruct t1 as [[X1 Y1] Z1], t2 as [[X2 Y2] Z2]. cbn [repr padd].
    intros (-> & -> & H1) (H2 & -> & ->). unfold b3, th. repeat split; try ring.
    match goal with |- ?e <> 0 => replace e with ((Y1 * Y1) * (y * (Z2 * Z2))) by ring end.
    repeat apply mul_nz; assumption.
  Qed.
  Lemma padd_comm t1 t2 : padd t1 t2 = padd t2 t1.
  Proof.
    destruct t1 as [[X1 Y1] Z1], t2 as [[X2 Y2] Z2]. cbn [padd]. unfold b3, th.
    f_equal; [f_equal|]; ring.
  Qed.

  (** coordinates of the chord sum, and of the difference *)
  Lemma repr_chord X1 Y1 Z1 X2 Y2 Z2 x1 y1 x2 y2 : on (AAff x1 y1) -> on (AAff x2 y2) -> x1 <> x2 ->
    repr (X1, Y1, Z1) (AAff x1 y1) -> repr (X2, Y2, Z2) (AAff x2 y2) ->
    repr (padd (X1, Y1, Z1) (X2, Y2, Z2)) (third ((y2 - y1) / (x2 - x1)) x1 y1 x2).
  Proof.
    intros O1 O2 Hx (N1 & -> & ->) (N2 & -> & ->).
    assert (Hd : x2 - x1 <> 0) by (apply sub_nz; congruence).
    (* the difference P1 - P2 is on the curve, so its y is not zero *)
    pose proof (on_neg _ O2) as O2'. cbn [aneg] in O2'.
    pose proof (on_chord x1 y1 x2 (- y2) Hx O1 O2') as OD.
    unfold third in OD. pose proof (y_nz _ _ OD) as YD. clear OD O2'.
    cbn [on] in O1, O2.
    assert (Eb : b = y1 * y1 - x1 * x1 * x1) by (rewrite O1; ring).
    assert (E2 : y2 * y2 = x2 * x2 * x2 + (y1 * y1 - x1 * x1 * x1)) by (rewrite O2, Eb; ring).
    unfold third. cbn [repr padd]. unfold b3, th. repeat split.
    - intros E. apply YD. clear YD.
      match type of E with ?e = 0 =>
        assert (EE : e = (Z1 * Z1) * (Z2 * Z2) *
          ((y1 + y2) * (y1 * y2 + (b + b + b)) + (x1 * x2 + x1 * x2 + x1 * x2) * (x1 * y2 + x2 * y1))) by ring
      end.
      rewrite E in EE. symmetry in EE. apply mul_0 in EE. destruct EE as [EE|EE].
      { exfalso. revert EE. repeat apply mul_nz; assumption. }
      rewrite Eb in EE.
      assert (G : (x2 - x1) * (x2 - x1) * (x2 - x1) *
         ((- y2 - y1) / (x2 - x1) *
          (x1 - ((- y2 - y1) / (x2 - x1) * ((- y2 - y1) / (x2 - x1)) - x1 - x2)) - y1) =
         (y1 + y2) * (y1 * y2 + (y1 * y1 - x1 * x1 * x1 + (y1 * y1 - x1 * x1 * x1) + (y1 * y1 - x1 * x1 * x1))) +
         (x1 * x2 + x1 * x2 + x1 * x2) * (x1 * y2 + x2 * y1)).
      { field_simplify_eq; [|exact Hd]. ring [E2]. }
      rewrite EE in G. apply mul_0 in G. destruct G as [G|G]; [|exact G].
      exfalso. revert G. repeat apply mul_nz; assumption.
    - rewrite Eb. field_simplify_eq; [|exact Hd]. ring [E2].
    - rewrite Eb. field_simplify_eq; [|exact Hd]. ring [E2].
  Qed.

  Lemma repr_tangent X1 Y1 Z1 X2 Y2 Z2 x y : on (AAff x y) ->
    repr (X1, Y1, Z1) (AAff x y) -> repr (X2, Y2, Z2) (AAff x y) ->
    repr (padd (X1, Y1, Z1) (X2, Y2, Z2)) (third ((x * x + x * x + x * x) / (y + y)) x y x).
  Proof.
    intros O (N1 & -> & ->) (N2 & -> & ->). pose proof (y_nz _ _ O) as Hy. cbn [on] in O.
    pose proof (double_nz y Hy) as Hd.
    assert (Eb : b = y * y - x * x * x) by (rewrite O; ring).
    unfold third. cbn [repr padd]. unfold b3, th. rewrite Eb. repeat split.
    - match goal with |- ?e <> 0 => replace e with ((Z1 * Z1) * (Z2 * Z2) * ((y + y) * (y + y) * (y + y))) by ring end.
      repeat apply mul_nz; assumption.
    - field. exact Hd.
    - field. exact Hd.
  Qed.
  Lemma repr_opposite X1 Y1 Z1 X2 Y2 Z2 x y : on (AAff x y) ->
    repr (X1, Y1, Z1) (AAff x y) -> repr (X2, Y2, Z2) (AAff x (- y)) ->
    repr (padd (X1, Y1, Z1) (X2, Y2, Z2)) AInf.
  Proof.
    intros O (N1 & -> & ->) (N2 & -> & ->). pose proof (y_nz _ _ O) as Hy.
    pose proof (double_nz y Hy) as Hd.
    pose proof (on_tangent x y Hy O) as OD. unfold third in OD. pose proof (y_nz _ _ OD) as YD. clear OD.
    cbn [on] in O. assert (Eb : b = y * y - x * x * x) by (rewrite O; ring).
    cbn [repr padd]. unfold b3, th. rewrite Eb. repeat split; try ring.
    intros E. apply YD. clear YD.
    match type of E with ?e = 0 =>
      assert (EE : e = (Z1 * Z1) * (Z2 * Z2) * ((y + y) * (y + y) * (y + y)) *
        ((x * x + x * x + x * x) / (y + y) *
         (x - ((x * x + x * x + x * x) / (y + y) * ((x * x + x * x + x * x) / (y + y)) - x - x)) - y)
        \/ e = (Z1 * Z1) * (Z2 * Z2) * ((y + y) * (y + y) * (y + y)) * (- (1)) *
        ((x * x + x * x + x * x) / (y + y) *
         (x - ((x * x + x * x + x * x) / (y + y) * ((x * x + x * x + x * x) / (y + y)) - x - x)) - y))
    end.
    { (left; field; exact Hd) || (right; field; exact Hd). }
    rewrite E in EE.
    assert (N : (Z1 * Z1) * (Z2 * Z2) * ((y + y) * (y + y) * (y + y)) <> 0) by (repeat apply mul_nz; assumption).
    destruct EE as [EE|EE]; symmetry in EE; apply mul_0 in EE; destruct EE as [EE|EE]; try exact EE; exfalso.
    - exact (N EE).
    - apply N. transitivity (- (Z1 * Z1 * (Z2 * Z2) * ((y + y) * (y + y) * (y + y)) * - (1))); [ring|].
      rewrite EE. ring.
  Qed.

  Theorem padd_repr t1 t2 P Q : on P -> on Q -> repr t1 P -> repr t2 Q -> repr (padd t1 t2) (aadd P Q).
  Proof.
    intros OP OQ R1 R2. destruct P as [|x1 y1].
    - destruct Q as [|x2 y2]; cbn [aadd]; [apply repr_inf_inf|apply repr_inf_l]; assumption.
    - destruct Q as [|x2 y2]; cbn [aadd].
      { rewrite padd_comm. apply repr_inf_l; assumption. }
      destruct t1 as [[X1 Y1] Z1], t2 as [[X2 Y2] Z2].
      destruct (feq_dec x1 x2) as [E|E].
      + subst x2. destruct (feq_dec (y1 + y2) 0) as [Ey|Ey].
        * assert (y2 = - y1) by (replace y2 with (y1 + y2 - y1) by ring; rewrite Ey; ring). subst y2.
          apply (repr_opposite _ _ _ _ _ _ x1 y1); assumption.
        * destruct (same_x x1 y1 y2 OP OQ) as [<-|]; [|contradiction]. apply repr_tangent; assumption.
      + apply repr_chord; assumption.
  Qed.

  (** ** Group axioms *)
  Definition to_p (P : apt) : ppt := match P with AInf => (0, 1, 0) | AAff x y => (x, y, 1) end.
  Lemma one_nz : 1 <> 0.
  Proof. intros E. apply two_nz. rewrite E. ring. Qed.
  Lemma to_p_repr P : repr (to_p P) P.
  Proof.
    pose proof one_nz. destruct P as [|x y]; cbn; repeat split; trivial; ring.
  Qed.
  (** Two coordinate triples of the same shape up to scaling denote the same point. *)
  Lemma repr_unique X Y Z X' Y' Z' P Q :
    repr (X, Y, Z) P -> repr (X', Y', Z') Q ->
    X * Z' = X' * Z -> Y * Z' = Y' * Z -> P = Q.
  Proof.
    destruct P as [|x y], Q as [|x' y']; cbn.
    - reflexivity.
    - intros (-> & -> & HY) (HZ & -> & ->) _ E2. exfalso. revert HY. 
      assert (E : Y * Z' = 0) by (rewrite E2; ring). apply mul_0 in E. destruct E as [E|E]; contradiction.
    - intros (HZ & -> & ->) (-> & -> & HY) _ E2. exfalso.
      assert (E : Y' * Z = 0) by (rewrite <- E2; ring). apply mul_0 in E. destruct E as [E|E]; contradiction.
    - intros (HZ & -> & ->) (HZ' & -> & ->) E1 E2.
      assert (N : Z * Z' <> 0) by (apply mul_nz; assumption). f_equal; apply (mul_cancel (Z * Z')); trivial.
      + transitivity (x * Z * Z'); [ring|rewrite E1; ring].
      + transitivity (y * Z * Z'); [ring|rewrite E2; ring].
  Qed.

  Theorem aadd_comm P Q : on P -> on Q -> aadd P Q = aadd Q P.
  Proof.
    intros OP OQ.
    pose proof (padd_repr _ _ P Q OP OQ (to_p_repr P) (to_p_repr Q)) as R1.
    pose proof (padd_repr _ _ Q P OQ OP (to_p_repr Q) (to_p_repr P)) as R2.
    rewrite padd_comm in R2. destruct (padd (to_p P) (to_p Q)) as [[X Y] Z].
    eapply repr_unique; [exact R1|exact R2|ring|ring].
  Qed.
  Lemma aadd_inf_l P : aadd AInf P = P. Proof. reflexivity. Qed.
  Lemma aadd_inf_r P : aadd P AInf = P. Proof. destruct P; reflexivity. Qed.
  Lemma aadd_neg P : on P -> aadd P (aneg P) = AInf.
  Proof.
    destruct P as [|x y]; [reflexivity|]. intros _. cbn [aneg aadd].
    destruct (feq_dec x x) as [_|N]; [|congruence].
    destruct (feq_dec (y + - y) 0) as [_|N]; [reflexivity|]. exfalso. apply N. ring.
  Qed.

  Theorem aadd_assoc P Q R : on P -> on Q -> on R -> aadd (aadd P Q) R = aadd P (aadd Q R).
  Proof.
    intros OP OQ OR.
    destruct P as [|x1 y1]; [reflexivity|]. destruct Q as [|x2 y2]; [rewrite aadd_inf_r; reflexivity|].
    destruct R as [|x3 y3]; [rewrite !aadd_inf_r; reflexivity|].
    set (P := AAff x1 y1) in *. set (Q := AAff x2 y2) in *. set (R := AAff x3 y3) in *.
    pose proof (padd_repr _ _ P Q OP OQ (to_p_repr P) (to_p_repr Q)) as R12.
    pose proof (padd_repr _ _ Q R OQ OR (to_p_repr Q) (to_p_repr R)) as R23.
    pose proof (padd_repr _ _ _ R (on_add P Q OP OQ) OR R12 (to_p_repr R)) as RL.
    pose proof (padd_repr _ _ P _ OP (on_add Q R OQ OR) (to_p_repr P) R23) as RR.
    clear R12 R23. unfold P, Q, R in *. cbn [on] in OP, OQ, OR. cbn [to_p padd] in RL, RR. unfold b3, th in RL, RR.
    eapply repr_unique; [exact RL|exact RR| |]; clear RL RR; ring [OP OQ OR].
  Qed.

  (** ** Multiples *)
  Definition amul (n : N) (P : apt) : apt := N.iter n (aadd P) AInf.
  Lemma amul_0 P : amul 0%N P = AInf. Proof. reflexivity. Qed.
  Lemma amul_succ n P : amul (N.succ n) P = aadd P (amul n P).
  Proof. apply N.iter_succ. Qed.
  Lemma amul_1 P : amul 1%N P = P.
  Proof. apply aadd_inf_r. Qed.
  Lemma on_mul n P : on P -> on (amul n P).
  Proof.
    intros O. induction n as [|n IH] using N.peano_ind; [exact I|].
    rewrite amul_succ. apply on_add; assumption.
  Qed.
  Lemma amul_add a c P : on P -> amul (a + c) P = aadd (amul a P) (amul c P).
  Proof.
    intros O. induction a as [|a IH] using N.peano_ind; [reflexivity|].
    rewrite N.add_succ_l, !amul_succ, IH. symmetry. apply aadd_assoc; auto using on_mul.
  Qed.
  Lemma amul_inf n : amul n AInf = AInf.
  Proof. induction n as [|n IH] using N.peano_ind; [reflexivity|]. rewrite amul_succ, IH. reflexivity. Qed.
  Lemma amul_mul a c P : on P -> amul (a * c) P = amul a (amul c P).
  Proof.
    intros O. induction a as [|a IH] using N.peano_ind; [reflexivity|].
    rewrite N.mul_succ_l, N.add_comm, amul_add, IH, amul_succ by exact O. reflexivity.
  Qed.
  Lemma amul_add_point n P Q : on P -> on Q -> amul n (aadd P Q) = aadd (amul n P) (amul n Q).
  Proof.
    intros OP OQ. induction n as [|n IH] using N.peano_ind; [reflexivity|].
    rewrite !amul_succ, IH.
    pose proof (on_mul n P OP). pose proof (on_mul n Q OQ).
    rewrite (aadd_assoc P Q) by auto using on_add.
    rewrite <- (aadd_assoc Q (amul n P)) by auto.
    rewrite (aadd_comm Q (amul n P)) by auto.
    rewrite (aadd_assoc (amul n P) Q) by auto.
    symmetry. apply aadd_assoc; auto using on_add.
  Qed.

  Fixpoint pmul (k : positive) (t : ppt) : ppt :=
    match k with
    | xH => t
    | xO k' => let R := pmul k' t in padd R R
    | xI k' => let R := pmul k' t in padd (padd R R) t
    end.
  Theorem pmul_repr k t P : on P -> repr t P -> repr (pmul k t) (amul (Npos k) P).
  Proof.
    intros O R. induction k as [k IH|k IH|]; cbn [pmul].
    - replace (Npos k~1) with (Npos k + Npos k + 1)%N by lia.
      rewrite !amul_add, amul_1 by exact O.
      apply padd_repr; auto using on_mul, on_add. apply padd_repr; auto using on_mul.
    - replace (Npos k~0) with (Npos k + Npos k)%N by lia. rewrite amul_add by exact O.
      apply padd_repr; auto using on_mul.
    - rewrite amul_1. exact R.
  Qed.

  Lemma cancel_l P Q R : on P -> on Q -> on R -> aadd P Q = aadd P R -> Q = R.
  Proof.
    intros OP OQ OR E. pose proof (on_neg P OP) as ON.
    assert (G : forall T, on T -> aadd (aneg P) (aadd P T) = T).
    { intros T OT. rewrite <- aadd_assoc by auto. rewrite (aadd_comm (aneg P) P) by auto.
      rewrite aadd_neg by exact OP. reflexivity. }
    rewrite <- (G Q), <- (G R), E by auto. reflexivity.
  Qed.
  Lemma no_two_torsion P : on P -> aadd P P = AInf -> P = AInf.
  Proof.
    destruct P as [|x y]; [reflexivity|]. intros O E. exfalso. cbn [aadd] in E.
    destruct (feq_dec x x) as [_|N]; [|congruence].
    destruct (feq_dec (y + y) 0) as [E2|N]; [|discriminate].
    exact (double_nz y (y_nz _ _ O) E2).
  Qed.

  (** ** A subgroup of odd order n > (number of points) / 3 is the whole group *)
  Lemma apt_eq_dec (P Q : apt) : {P = Q} + {P <> Q}.
  Proof.
    destruct P as [|x y], Q as [|x' y']; try (left; reflexivity); try (right; discriminate).
    destruct (feq_dec x x') as [<-|N]; [|right; congruence].
    destruct (feq_dec y y') as [<-|N]; [left; reflexivity|right; congruence].
  Qed.

  Section Count.
    Variable elems : list F.
    Hypothesis elems_all : forall x, In x elems.
    Hypothesis elems_nodup : NoDup elems.

    Definition ys (x : F) : list F :=
      filter (fun y => if feq_dec (y * y) (x * x * x + b) then true else false) elems.
    Definition all_points : list apt := AInf :: flat_map (fun x => map (AAff x) (ys x)) elems.

    Lemma all_points_complete P : on P -> In P all_points.
    Proof.
      destruct P as [|x y]; [left; reflexivity|]. intros O. right. apply in_flat_map.
      exists x. split; [apply elems_all|]. apply in_map. unfold ys. apply filter_In.
      split; [apply elems_all|]. cbn [on] in O. destruct (feq_dec _ _); [reflexivity|contradiction].
    Qed.
    Lemma ys_le x : length (ys x) <= 2.
    Proof.
      destruct (ys x) as [|y l] eqn:E; [cbn; lia|]. rewrite <- E.
      assert (Hy : on (AAff x y)).
      { assert (In y (ys x)) by (rewrite E; left; reflexivity). unfold ys in H. apply filter_In in H.
        destruct H as [_ H]. cbn. destruct (feq_dec _ _); [assumption|discriminate]. }
      change 2 with (length [y; - y]). apply NoDup_incl_length; [apply NoDup_filter; exact elems_nodup|].
      intros z Hz. unfold ys in Hz. apply filter_In in Hz. destruct Hz as [_ Hz].
      destruct (feq_dec (z * z) (x * x * x + b)) as [O|]; [|discriminate].
      destruct (same_x x y z Hy O) as [->|S]; [left; reflexivity|right; left].
      replace z with (y + z - y) by ring. rewrite S. ring.
    Qed.
    Lemma all_points_length : length all_points <= 1 + 2 * length elems.
    Proof.
      unfold all_points. cbn [length]. apply le_n_S.
      assert (G : forall l : list F, length (flat_map (fun x => map (AAff x) (ys x)) l) <= 2 * length l).
      { induction l as [|x l IH]; [cbn; lia|]. cbn [flat_map length]. rewrite app_length, map_length.
        pose proof (ys_le x). lia. }
      apply G.
    Qed.

    Variable G : apt.
    Hypothesis OG : on G.
    Variable n : nat.
    Hypothesis n_odd : Nat.Odd n.
    Hypothesis nG : amul (N.of_nat n) G = AInf.
    Hypothesis order : forall k, 0 < k < n -> amul (N.of_nat k) G <> AInf.
    Hypothesis count : 1 + 2 * length elems < 3 * n.

    Let H (P : apt) : Prop := exists k : N, P = amul k G.
    Lemma H_on P : H P -> on P.
    Proof. intros [k ->]. apply on_mul, OG. Qed.
    Lemma H_add P Q : H P -> H Q -> H (aadd P Q).
    Proof. intros [j ->] [k ->]. exists (j + k)%N. symmetry. apply amul_add, OG. Qed.
    Lemma n_pos : 0 < n. Proof. destruct n_odd. lia. Qed.
    Lemma amul_n k : amul (k * N.of_nat n) G = AInf.
    Proof. rewrite amul_mul, nG by exact OG. apply amul_inf. Qed.
    Lemma H_neg P : H P -> H (aneg P).
    Proof.
      intros [k ->]. exists (k * N.of_nat n - k)%N.
      apply (cancel_l (amul k G)); auto using on_mul, on_neg.
      rewrite aadd_neg by auto using on_mul. rewrite <- amul_add by exact OG.
      rewrite N.add_comm, N.sub_add by (pose proof n_pos; nia). symmetry. apply amul_n.
    Qed.
    Lemma H_small P : H P -> exists k, k < n /\ P = amul (N.of_nat k) G.
    Proof.
      intros [k ->]. exists (N.to_nat (k mod N.of_nat n)). pose proof n_pos.
      assert (E : (k mod N.of_nat n < N.of_nat n)%N) by (apply N.mod_lt; lia). split; [lia|].
      rewrite N2Nat.id. rewrite (N.div_mod k (N.of_nat n)) at 1 by lia.
      rewrite N.mul_comm, amul_add, amul_n by exact OG. reflexivity.
    Qed.
    Lemma G_inj i j : i <= j < n -> amul (N.of_nat i) G = amul (N.of_nat j) G -> i = j.
    Proof.
      intros Hj E. destruct (Nat.eq_dec i j) as [|Nij]; [assumption|exfalso].
      apply (order (j - i)); [lia|].
      apply (cancel_l (amul (N.of_nat i) G)); auto using on_mul; [exact I|].
      rewrite <- amul_add by exact OG. rewrite aadd_inf_r.
      replace (N.of_nat i + N.of_nat (j - i))%N with (N.of_nat j) by lia. symmetry. exact E.
    Qed.
    Definition Hlist : list apt := map (fun k => amul (N.of_nat k) G) (seq 0 n).
    Lemma Hlist_nodup : NoDup Hlist.
    Proof.
      unfold Hlist. assert (X : forall l, NoDup l -> (forall k, In k l -> k < n) ->
        NoDup (map (fun k => amul (N.of_nat k) G) l)).
      { induction l as [|k l IH]; intros ND B; [constructor|]. inversion ND as [|? ? N1 N2]; subst.
        cbn [map]. constructor.
        - intros Hin. apply in_map_iff in Hin. destruct Hin as [j [E Hj]].
          pose proof (B k (or_introl eq_refl)). pose proof (B j (or_intror Hj)).
          destruct (Nat.le_ge_cases k j) as [L|L].
          + symmetry in E. apply G_inj in E; [|lia]. subst. contradiction.
          + apply G_inj in E; [|lia]. subst. contradiction.
        - apply IH; [exact N2|]. intros j Hj. apply B. right; exact Hj. }
      apply X; [apply seq_NoDup|]. intros k Hk. apply in_seq in Hk. lia.
    Qed.
    Lemma Hlist_H P : In P Hlist <-> H P.
    Proof.
      unfold Hlist. rewrite in_map_iff. split.
      - intros [k [<- _]]. exists (N.of_nat k). reflexivity.
      - intros HP. destruct (H_small P HP) as [k [Hk ->]]. exists k. split; [reflexivity|]. apply in_seq. lia.
    Qed.
    Lemma coset_nodup Q : on Q -> NoDup (map (aadd Q) Hlist).
    Proof.
      intros OQ. assert (X : forall l, NoDup l -> (forall P, In P l -> on P) -> NoDup (map (aadd Q) l)).
      { induction l as [|P l IH]; intros ND B; [constructor|]. inversion ND as [|? ? N1 N2]; subst.
        cbn [map]. constructor.
        - intros Hin. apply in_map_iff in Hin. destruct Hin as [R [E HR]].
          apply cancel_l in E; [subst; contradiction|exact OQ|apply B; right; exact HR|apply B; left; reflexivity].
        - apply IH; [exact N2|]. intros R HR. apply B. right; exact HR. }
      apply X; [apply Hlist_nodup|]. intros P HP. apply H_on, Hlist_H, HP.
    Qed.
    Lemma H_diff Q h h' : on Q -> H h -> H h' -> aadd Q h = h' -> H Q.
    Proof.
      intros OQ Hh Hh' E. replace Q with (aadd h' (aneg h)); [apply H_add; [exact Hh'|apply H_neg; exact Hh]|].
      rewrite <- E. pose proof (H_on _ Hh). rewrite aadd_assoc by auto using on_neg.
      rewrite aadd_neg by assumption. apply aadd_inf_r.
    Qed.

    Theorem generated P : on P -> exists k, k < n /\ P = amul (N.of_nat k) G.
    Proof.
      intros OP. apply H_small. destruct (in_dec apt_eq_dec P Hlist) as [I|NI]; [apply Hlist_H; exact I|].
      destruct (in_dec apt_eq_dec (aadd P P) Hlist) as [I2|NI2].
      - apply Hlist_H in I2. destruct (H_small _ I2) as [k [Hk E]].
        assert (X : exists j, amul (N.of_nat (2 * j)) G = aadd P P).
        { destruct (Nat.Even_or_Odd k) as [[j ->]|[j ->]].
          - exists j. symmetry; exact E.
          - destruct n_odd as [m Hm]. exists (j + m + 1)%nat. rewrite E.
            replace (N.of_nat (2 * (j + m + 1))) with (N.of_nat (2 * j + 1) + N.of_nat n)%N by lia.
            rewrite amul_add, nG by exact OG. apply aadd_inf_r. }
        destruct X as [j Ej]. exists (N.of_nat j).
        replace (N.of_nat (2 * j)) with (N.of_nat j + N.of_nat j)%N in Ej by lia.
        rewrite amul_add in Ej by exact OG. set (T := amul (N.of_nat j) G) in *.
        assert (OT : on T) by (apply on_mul, OG).
        assert (D : aadd P (aneg T) = AInf).
        { apply no_two_torsion; [auto using on_add, on_neg|].
          rewrite <- (aadd_neg (aadd P P)), <- Ej at 1 by auto using on_add.
          rewrite (aadd_comm P (aneg T)) at 2 by auto using on_neg.
          rewrite <- (aadd_assoc (aadd P (aneg T))) by auto using on_add, on_neg.
          rewrite (aadd_assoc P (aneg T) (aneg T)) by auto using on_neg.
          rewrite (aadd_comm P) by auto using on_add, on_neg.
          rewrite (aadd_assoc _ P P) by auto using on_add, on_neg. rewrite <- Ej.
          rewrite (aadd_assoc (aneg T)) by auto using on_add, on_neg.
          rewrite <- (aadd_assoc (aneg T) T T) by auto using on_neg.
          rewrite (aadd_comm (aneg T) T) by auto using on_neg.
          rewrite aadd_neg by auto. cbn [aadd].
          rewrite (aadd_comm (aneg T) T) by auto using on_neg.
          rewrite aadd_neg by auto. rewrite aadd_neg by auto using on_add. reflexivity. }
        apply (cancel_l (aneg T)); auto using on_neg.
        rewrite (aadd_comm (aneg T) P) by auto using on_neg. rewrite D.
        rewrite (aadd_comm (aneg T) T) by auto using on_neg. symmetry. apply aadd_neg, OT.
      - exfalso. rewrite Hlist_H in NI, NI2.
        set (big := Hlist ++ map (aadd P) Hlist ++ map (aadd (aadd P P)) Hlist).
        assert (ND : NoDup big).
        { unfold big.
          assert (D : forall (a c : list apt), NoDup a -> NoDup c -> (forall x, In x a -> ~ In x c) -> NoDup (a ++ c)).
          { induction a as [|x a IH]; intros c Na Nc Dj; [exact Nc|]. inversion Na as [|? ? N1 N2]; subst.
            cbn [app]. constructor.
            - rewrite in_app_iff. intros [X|X]; [contradiction|]. apply (Dj x); [left; reflexivity|exact X].
            - apply IH; trivial. intros z Hz. apply Dj. right; exact Hz. }
          apply D; [apply Hlist_nodup|apply D; try apply coset_nodup; auto using on_add|].
          - intros x Hx Hx2. apply in_map_iff in Hx. destruct Hx as [h [E1 Hh]].
            apply in_map_iff in Hx2. destruct Hx2 as [h2 [E2 Hh2]]. apply NI.
            rewrite Hlist_H in Hh, Hh2. pose proof (H_on _ Hh). pose proof (H_on _ Hh2).
            apply (H_diff P h2 h); trivial.
            apply (cancel_l P); auto using on_add. rewrite E1, <- E2. symmetry. apply aadd_assoc; assumption.
          - intros x Hx Hx2. apply Hlist_H in Hx. apply in_app_iff in Hx2. destruct Hx2 as [Hx2|Hx2];
            apply in_map_iff in Hx2; destruct Hx2 as [h [E Hh]]; apply Hlist_H in Hh.
            + apply NI. apply (H_diff P h x); auto.
            + apply NI2. apply (H_diff _ h x); auto using on_add. }
        assert (LB : length big <= length all_points).
        { apply NoDup_incl_length; [exact ND|]. intros x Hx. apply all_points_complete.
          assert (HO : forall h, In h Hlist -> on h) by (intros h Hh; apply H_on, Hlist_H, Hh).
          unfold big in Hx. rewrite !in_app_iff, !in_map_iff in Hx.
          destruct Hx as [Hx|[[h [<- Hh]]|[h [<- Hh]]]]; auto using on_add. }
        pose proof all_points_length. unfold big in LB. rewrite !app_length, !map_length in LB.
        unfold Hlist in LB. rewrite map_length, seq_length in LB. lia.
    Qed.
  End Count.
End EC.
