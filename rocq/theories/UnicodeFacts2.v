(** * UnicodeFacts2: canonical equivalence, and what composition produces *)
From Coq Require Import Lia ZifyBool ZifyNat ZifyN.
From Verif Require Import Py PyFacts Unicode SpecUnicode UnicodeFacts.
Local Open Scope N_scope.

(** ** Canonical equivalence is equality of decompositions *)
Lemma ce_app u v a b : canonically_equivalent u v -> canonically_equivalent (a ++ u ++ b) (a ++ v ++ b).
Proof.
  intros H. induction H as [s|s t _ IH|s t w _ IH1 _ IH2|c l x y D|c d k k' x y C D K K' NE].
  - apply ce_refl.
  - apply ce_sym, IH.
  - exact (ce_trans _ _ _ IH1 IH2).
  - rewrite <- !app_assoc, !(app_assoc a x). exact (ce_decompose c l (a ++ x) (y ++ b) D).
  - rewrite <- !app_assoc, !(app_assoc a x). exact (ce_swap c d k k' (a ++ x) (y ++ b) C D K K' NE).
Qed.
Lemma ce_both u v u' v' : canonically_equivalent u v -> canonically_equivalent u' v' -> canonically_equivalent (u ++ u') (v ++ v').
Proof.
  intros H H'. apply (ce_trans _ (v ++ u')); [exact (ce_app _ _ [] u' H)|]. pose proof (ce_app _ _ v [] H') as A. rewrite !app_nil_r in A. exact A.
Qed.
(** The parts of a character of class other than 0 are of the same class. *)
Definition same_class (e : N * list N) : bool := (class (fst e) =? 0) || forallb (fun d => class d =? class (fst e)) (full (fst e)).
Lemma same_class_check : forallb same_class decompositions = true. Proof. vm_compute. reflexivity. Qed.
Lemma syllable_class_check : forallb (fun e => negb (is_syllable (fst e))) combining_classes = true. Proof. vm_compute. reflexivity. Qed.
Lemma syllable_class c : is_syllable c = true -> class c = 0.
Proof.
  intros S. apply class_unique. right. split; [reflexivity|]. intros k I. pose proof (proj1 (forallb_forall _ _) syllable_class_check _ I) as E. cbn [fst] in E. rewrite S in E. discriminate.
Qed.
Lemma full_class e d : class e <> 0 -> In d (full e) -> class d = class e.
Proof.
  intros NE. destruct (one_step e) as [l|] eqn:E; [|rewrite (fixed_full e E); intros [<-|[]]; reflexivity]. unfold one_step in E.
  destruct (is_syllable e) eqn:S; [destruct (NE (syllable_class e S))|]. rewrite decomposition_table_eq in E. apply find_table in E.
  pose proof (proj1 (forallb_forall _ _) same_class_check _ E) as C. unfold same_class in C. cbn [fst] in C. destruct (N.eqb_spec (class e) 0) as [Z|_]; [contradiction|].
  cbn [orb] in C. intros I. pose proof (proj1 (forallb_forall _ _) C _ I). cbv beta in *. lia.
Qed.
Lemma reorder_exchange t B : forall A, (forall b, In b B -> class b <> 0 /\ forall a, In a A -> class a <> 0 /\ class a <> class b) -> reorder (A ++ B ++ t) = reorder (B ++ A ++ t).
Proof.
  induction B as [|b B IH]; intros A H; [reflexivity|]. cbn [app]. destruct (H b (or_introl eq_refl)) as [H1 H2]. rewrite (reorder_move b A (B ++ t) H1 H2).
  apply (reorder_cong [b]). apply IH. intros b' I. apply H. right. exact I.
Qed.
Lemma equivalent_nfd s t : canonically_equivalent s t -> nfd s = nfd t.
Proof.
  intros H. induction H as [s|s t _ IH|s t w _ IH1 _ IH2|c l x y D|c d k k' x y C D K K' NE].
  - reflexivity.
  - symmetry; exact IH.
  - congruence.
  - unfold nfd. rewrite !flat_map_app. cbn [flat_map]. rewrite (full_step c l D), app_nil_r. reflexivity.
  - apply class_unique in C. apply class_unique in D. unfold nfd. rewrite !flat_map_app. apply reorder_cong. cbn [flat_map]. rewrite !app_nil_r, <- !app_assoc.
    apply reorder_exchange. intros b Ib. pose proof (full_class d b ltac:(lia) Ib). split; [lia|]. intros a Ia. pose proof (full_class c a ltac:(lia) Ia). lia.
Qed.
Lemma ce_step c l : one_step c = Some l -> canonically_equivalent [c] l.
Proof. intros E. apply one_step_iff in E. pose proof (ce_decompose c l [] [] E) as H. cbn [app] in H. rewrite app_nil_r in H. exact H. Qed.
Lemma ce_flat (f : N -> list N) : (forall c, canonically_equivalent [c] (f c)) -> forall l, canonically_equivalent l (flat_map f l).
Proof. intros H. induction l as [|c l IH]; [apply ce_refl|]. exact (ce_both [c] (f c) l _ (H c) IH). Qed.
Lemma ce_decomposed n : forall c, canonically_equivalent [c] (decompose n c).
Proof.
  induction n as [|n IH]; intros c; cbn [decompose]; [apply ce_refl|]. destruct (one_step c) as [l|] eqn:E; [|apply ce_refl].
  apply (ce_trans _ l); [apply ce_step, E|]. apply ce_flat, IH.
Qed.
Lemma ce_insert c l : canonically_equivalent (c :: l) (insert c l).
Proof.
  induction l as [|d r IH]; cbn [insert]; [apply ce_refl|]. destruct ((0 <? class d) && (class d <? class c)) eqn:E; [|apply ce_refl].
  apply (ce_trans _ (d :: c :: r)); [|exact (ce_both [d] [d] _ _ (ce_refl _) IH)].
  apply (ce_swap c d (class c) (class d) [] r); [apply class_spec|apply class_spec|lia|lia|lia].
Qed.
Lemma ce_reorder l : canonically_equivalent l (reorder l).
Proof.
  induction l as [|c l IH]; [apply ce_refl|]. cbn [reorder fold_right]. apply (ce_trans _ (c :: reorder l)); [exact (ce_both [c] [c] _ _ (ce_refl _) IH)|apply ce_insert].
Qed.
Lemma ce_nfd s : canonically_equivalent s (nfd s).
Proof. unfold nfd. apply (ce_trans _ (flat_map full s)); [|apply ce_reorder]. apply ce_flat. intros c. apply ce_decomposed. Qed.
Lemma equivalent_iff s t : canonically_equivalent s t <-> nfc s = nfc t.
Proof.
  rewrite nfc_eq_nfd. split; [apply equivalent_nfd|]. intros H. apply (ce_trans _ (nfd s)); [apply ce_nfd|]. rewrite H. apply ce_sym, ce_nfd.
Qed.
Lemma ce_nfc s : canonically_equivalent s (nfc s).
Proof. apply equivalent_iff. symmetry. apply nfc_nfc. Qed.

(** ** Composition *)
Definition composite_ok (e : N * (N * N)) : bool :=
  let '(a, (b, p)) := e in
  match pair a b with Some q => q =? p | None => false end && match one_step b with None => true | Some _ => false end && (class p =? 0).
Lemma composites_check : forallb composite_ok composites = true. Proof. vm_compute. reflexivity. Qed.
Lemma exclusions_check : forallb (fun c => negb (is_syllable c)) composition_exclusions = true. Proof. vm_compute. reflexivity. Qed.
Lemma existsb_in c l : existsb (N.eqb c) l = true <-> In c l.
Proof. rewrite existsb_exists. split; [intros (x & I & E); assert (c = x) as -> by lia; exact I|intros I; exists c; split; [exact I|lia]]. Qed.
Lemma composites_iff a b p : In (a, (b, p)) composites <-> In (p, [a; b]) decompositions /\ ~ In p composition_exclusions.
Proof.
  unfold composites. rewrite in_flat_map. split.
  - intros ([c l] & I & J). destruct l as [|x [|y [|z l]]]; try destruct J.
    destruct (existsb (N.eqb c) composition_exclusions) eqn:E; [destruct J|]. destruct J as [J|[]]. injection J as -> -> ->. split; [exact I|].
    rewrite <- existsb_in, E. discriminate.
  - intros [I NE]. exists (p, [a; b]). split; [exact I|]. destruct (existsb (N.eqb p) composition_exclusions) eqn:E; [rewrite existsb_in in E; contradiction|left; reflexivity].
Qed.
Lemma syllable_not_excluded c : is_syllable c = true -> ~ In c composition_exclusions.
Proof. intros S I. pose proof (proj1 (forallb_forall _ _) exclusions_check _ I) as E. cbv beta in E. rewrite S in E. discriminate. Qed.
Lemma syllable_true l v t : l < 19 -> v < 21 -> t < 28 -> is_syllable (hangul_syllable l v t) = true.
Proof. intros. apply (syllable_parts_eq l v t); assumption. Qed.
(** a primary composite: its first part and itself are starters, its second cannot be decomposed *)
Lemma two_inj (a b c d : N) : [a; b] = [c; d] -> a = c /\ b = d. Proof. intros [= -> ->]. auto. Qed.
Lemma decomposes_pair p a b : decomposes p [a; b] -> In (p, [a; b]) decompositions \/
  (exists i j, i < 19 /\ j < 21 /\ p = hangul_syllable i j 0 /\ a = 0x1100 + i /\ b = 0x1161 + j) \/
  (exists i j t, i < 19 /\ j < 21 /\ 0 < t < 28 /\ p = hangul_syllable i j t /\ a = hangul_syllable i j 0 /\ b = 0x11A7 + t).
Proof.
  intros D. remember [a; b] as l eqn:L. destruct D as [c l I|i j Hi Hj|i j t Hi Hj Ht].
  - left. exact I.
  - right; left. symmetry in L. apply two_inj in L. destruct L. exists i, j. auto.
  - right; right. symmetry in L. apply two_inj in L. destruct L. exists i, j, t. auto 7.
Qed.
Lemma pair_iff a b p : pair a b = Some p <-> primary_composite p a b.
Proof.
  split.
  - intros E. split; [apply pair_decomposes, E|]. unfold pair in E. destruct ((0x1100 <=? a) && (a <=? 0x1112) && (0x1161 <=? b) && (b <=? 0x1175)) eqn:E1.
    + apply syllable_not_excluded. assert (E' : p = hangul_syllable (a - 0x1100) (b - 0x1161) 0) by (unfold hangul_syllable; rewrite N.add_0_r; congruence).
      rewrite E'. apply syllable_true; lia.
    + destruct (is_syllable a && ((a - 0xAC00) mod 28 =? 0) && (0x11A8 <=? b) && (b <=? 0x11C2)) eqn:E2.
      * apply syllable_not_excluded. rewrite !andb_true_iff in E2. destruct E2 as (((S & M) & B1) & B2). destruct (syllable_eq a S) as (l & v & t & Hl & Hv & Ht & ->).
        assert (t = 0).
        { unfold hangul_syllable in M. replace (0xAC00 + (l * 21 + v) * 28 + t - 0xAC00) with (t + (l * 21 + v) * 28) in M by lia. rewrite N.mod_add in M by lia. rewrite N.mod_small in M by lia. lia. }
        assert (E' : p = hangul_syllable l v (b - 0x11A7)). { apply (f_equal (fun o => match o with Some x => x | None => 0 end)) in E. rewrite <- E. subst t. unfold hangul_syllable. lia. }
        rewrite E'. apply syllable_true; lia.
      * clear E1 E2. destruct (find a composite_table) as [l|] eqn:F; [|discriminate]. destruct (List.find (fun e => fst e =? b) l) as [[b' p']|] eqn:G; [|discriminate].
        injection E as <-. apply find_some in G. destruct G as [I Eb]. cbn [fst snd] in Eb. assert (b' = b) by lia. subst b'. rewrite composite_table_eq in F.
        apply (composites_iff a b). exact (find_composites a l composites F b p' I).
  - intros [D NE]. apply decomposes_pair in D. destruct D as [I|[(i & j & Hi & Hj & -> & -> & ->)|(i & j & t & Hi & Hj & Ht & -> & -> & ->)]].
    + pose proof (proj2 (composites_iff a b p) (conj I NE)) as J. pose proof (proj1 (forallb_forall _ _) composites_check _ J) as C. unfold composite_ok in C.
      destruct (pair a b) as [q|]; [|discriminate]. f_equal. lia.
    + unfold pair. replace ((0x1100 <=? 0x1100 + i) && (0x1100 + i <=? 0x1112) && (0x1161 <=? 0x1161 + j) && (0x1161 + j <=? 0x1175)) with true by lia. apply (f_equal Some). unfold hangul_syllable. lia.
    + unfold pair. replace ((0x1100 <=? hangul_syllable i j 0) && (hangul_syllable i j 0 <=? 0x1112) && (0x1161 <=? 0x11A7 + t) && (0x11A7 + t <=? 0x1175)) with false by (unfold hangul_syllable; lia).
      rewrite (syllable_true i j 0) by lia. replace ((hangul_syllable i j 0 - 0xAC00) mod 28) with 0.
      * replace (true && (0 =? 0) && (0x11A8 <=? 0x11A7 + t) && (0x11A7 + t <=? 0x11C2)) with true by lia. apply (f_equal Some). unfold hangul_syllable. lia.
      * unfold hangul_syllable. replace (0xAC00 + (i * 21 + j) * 28 + 0 - 0xAC00) with ((i * 21 + j) * 28) by lia. symmetry. apply N.mod_mul. lia.
Qed.
Lemma pair_facts a b p : pair a b = Some p -> one_step b = None /\ class p = 0.
Proof.
  intros E. apply pair_iff in E. destruct E as [D NE]. apply decomposes_pair in D. destruct D as [I|[(i & j & Hi & Hj & -> & -> & ->)|(i & j & t & Hi & Hj & Ht & -> & -> & ->)]].
  - pose proof (proj2 (composites_iff a b p) (conj I NE)) as J. pose proof (proj1 (forallb_forall _ _) composites_check _ J) as C. unfold composite_ok in C.
    rewrite !andb_true_iff in C. destruct C as ((_ & C1) & C2). split; [destruct (one_step b); [discriminate|reflexivity]|lia].
  - split; [apply jamo_fixed; lia|]. apply syllable_class, syllable_true; lia.
  - split; [apply jamo_fixed; lia|]. apply syllable_class, syllable_true; lia.
Qed.
(** full decompositions are in order *)
Lemma full_ordered_check : forallb (fun e => list_eqb (reorder (full (fst e))) (full (fst e))) decompositions = true. Proof. vm_compute. reflexivity. Qed.
Lemma jamo_class_check : forallb (fun d => class d =? 0) jamo = true. Proof. vm_compute. reflexivity. Qed.
Lemma jamo_class d : (0x1100 <= d < 0x1100 + 19) \/ (0x1161 <= d < 0x1161 + 21) \/ (0x11A8 <= d < 0x11A8 + 27) -> class d = 0.
Proof.
  intros H. assert (I : In d jamo).
  { unfold jamo. rewrite !in_app_iff, !in_map_iff. destruct H as [H|[H|H]].
    - left. exists (N.to_nat (d - 0x1100)). rewrite in_seq. lia.
    - right; left. exists (N.to_nat (d - 0x1161)). rewrite in_seq. lia.
    - right; right. exists (N.to_nat (d - 0x11A8)). rewrite in_seq. lia. }
  pose proof (proj1 (forallb_forall _ _) jamo_class_check _ I) as E. cbv beta in E. lia.
Qed.
Lemma ordered_last k l b c : ordered k (l ++ [c; b]) -> class b = 0 \/ class c <= class b.
Proof. revert k. induction l as [|d l IH]; intros k; cbn [app ordered]; [tauto|]. intros [_ H]. exact (IH _ H). Qed.
Lemma pair_order s c p b q : pair s c = Some p -> pair p b = Some q -> class b = 0 \/ class c <= class b.
Proof.
  intros E1 E2. destruct (pair_facts _ _ _ E1) as [F1 _]. destruct (pair_facts _ _ _ E2) as [F2 _].
  pose proof (pair_full _ _ _ E2) as Q. rewrite (pair_full _ _ _ E1), (fixed_full c F1), (fixed_full b F2), <- app_assoc in Q. cbn [app] in Q.
  apply pair_iff in E2. destruct E2 as [D _]. apply decomposes_pair in D. destruct D as [I|[(i & j & Hi & Hj & _ & _ & ->)|(i & j & t & Hi & Hj & Ht & _ & _ & ->)]].
  - pose proof (proj1 (forallb_forall _ _) full_ordered_check _ I) as O. cbn [fst] in O. apply list_eqb_eq in O. pose proof (reorder_ordered (full q)) as R. rewrite O, Q in R.
    exact (ordered_last 0 (full s) b c R).
  - left. apply jamo_class. lia.
  - left. apply jamo_class. lia.
Qed.

Definition unblocked (m : list N) (b : N) : Prop := forall c, In c m -> class c <> 0 /\ class c < class b.
Definition composed_b (l : list N) : Prop := forall x a m b y, l = x ++ a :: m ++ b :: y -> class a = 0 -> unblocked m b -> pair a b = None.
Definition char_ok (c : N) : Prop := one_step c = None \/ exists a b, pair a b = Some c.
Lemma split_app {A} (u v x : list A) b y : u ++ v = x ++ b :: y -> (exists y', u = x ++ b :: y') \/ exists x', x = u ++ x' /\ v = x' ++ b :: y.
Proof.
  revert x. induction u as [|e u IH]; intros x; cbn [app]; [intros ->; right; exists x; auto|]. destruct x as [|f x]; cbn [app].
  - intros [= -> _]. left. exists u. reflexivity.
  - intros [= -> E]. destruct (IH _ E) as [(y' & ->)|(x' & -> & ->)]; [left; exists y'; reflexivity|right; exists x'; auto].
Qed.
Lemma composed_segment s acc rest :
  (forall d, In d acc -> class d <> 0) -> (forall m b y, acc = m ++ b :: y -> unblocked m b -> pair s b = None) ->
  composed_b rest -> match rest with [] => True | h :: _ => class h = 0 /\ (acc = [] -> pair s h = None) end -> composed_b (s :: acc ++ rest).
Proof.
  intros HA H3 HR HH x a m b y E Ca U. destruct x as [|s' x]; cbn [app] in E; injection E as -> E.
  - destruct (split_app _ _ _ _ _ E) as [(y' & E')|(m' & -> & E')]; [exact (H3 m b y' E' U)|].
    subst rest. destruct m' as [|h m']; cbn [app] in HH; destruct HH as [Ch HH].
    + destruct acc as [|d acc]; [apply HH; reflexivity|]. destruct (U d) as [_ L]; [left; reflexivity|]. lia.
    + destruct (U h) as [Z _]; [apply in_app_iff; right; left; reflexivity|]. contradiction.
  - destruct (split_app _ _ _ _ _ E) as [(y' & E')|(x' & -> & E')].
    + exfalso. apply (HA a); [|exact Ca]. rewrite E'. apply in_app_iff. right. left. reflexivity.
    + exact (HR _ _ _ _ _ E' Ca U).
Qed.
Lemma pair_one_step a b p : pair a b = Some p -> one_step p <> None.
Proof. intros E. apply pair_decomposes, one_step_iff in E. congruence. Qed.
Lemma compose_from_composed : forall r s acc last,
  class s = 0 -> char_ok s ->
  (forall d, In d acc -> one_step d = None /\ class d <> 0 /\ class d <= last) -> (acc <> [] -> exists d, In d acc /\ class d = last) ->
  (forall m b y, acc = m ++ b :: y -> unblocked m b -> pair s b = None) -> (forall d, In d r -> one_step d = None) ->
  (acc = [] -> last = 0) -> ordered last r ->
  composed_b (compose_from s acc last r) /\ (forall c, In c (compose_from s acc last r) -> char_ok c) /\
  exists h t, compose_from s acc last r = h :: t /\ class h = 0 /\ (h = s \/ one_step h <> None).
Proof.
  induction r as [|c r IH]; intros s acc last Cs Os HA HL H3 HR H0 O.
  - cbn [compose_from]. split; [|split; [|exists s, acc; auto]].
    + rewrite <- (app_nil_r acc). apply composed_segment; [intros d Hd; apply HA, Hd|exact H3| |exact I]. intros x a m b y E. destruct x; discriminate.
    + intros d [<-|Hd]; [exact Os|]. left. apply HA, Hd.
  - cbn [compose_from]. assert (Fc : one_step c = None) by (apply HR; left; reflexivity). assert (HR' : forall d, In d r -> one_step d = None) by (intros d Hd; apply HR; right; exact Hd).
    cbn [ordered] in O. destruct O as [O1 O2].
    destruct (if match acc with [] => true | _ => last <? class c end then pair s c else None) as [p|] eqn:E.
    + assert (U : acc = [] \/ last < class c) by (destruct acc; [left; reflexivity|right]; destruct (N.ltb_spec last (class c)); [assumption|discriminate]).
      assert (PP : pair s c = Some p) by (destruct (match acc with [] => true | _ => last <? class c end); [exact E|discriminate]).
      destruct (IH p acc last) as (A & B & h & t & C1 & C2 & C3).
      * apply (pair_facts _ _ _ PP).
      * right. eauto.
      * exact HA.
      * exact HL.
      * intros m b y EA _. destruct (pair p b) as [q|] eqn:Q; [exfalso|reflexivity]. pose proof (pair_order _ _ _ _ _ PP Q).
        assert (Ib : In b acc) by (rewrite EA; apply in_app_iff; right; left; reflexivity). destruct (HA b Ib) as (_ & Z & L). destruct U as [->|U]; [destruct Ib|lia].
      * exact HR'.
      * exact H0.
      * apply (ordered_weaken _ _ _ O2). destruct U as [U|U]; [rewrite (H0 U)|]; lia.
      * split; [exact A|]. split; [exact B|]. exists h, t. split; [exact C1|]. split; [exact C2|]. right. destruct C3 as [->|C3]; [exact (pair_one_step _ _ _ PP)|exact C3].
    + destruct (N.eqb_spec (class c) 0) as [Z|Z].
      * destruct (IH c [] 0) as (A & B & h & t & C1 & C2 & C3); [exact Z|left; exact Fc|intros d []|intros X; destruct (X eq_refl)|intros m b y X; destruct m; discriminate|exact HR'|reflexivity|exact (ordered_0 _ _ O2)|].
        split; [|split].
        -- apply composed_segment; [intros d Hd; apply HA, Hd|exact H3|exact A|]. rewrite C1. split; [exact C2|]. intros ->. destruct C3 as [->|C3]; [exact E|].
           destruct (pair s h) as [q|] eqn:Q; [|reflexivity]. destruct (pair_facts _ _ _ Q). contradiction.
        -- intros d [<-|Hd]; [exact Os|]. apply in_app_iff in Hd. destruct Hd as [Hd|Hd]; [left; apply HA, Hd|exact (B d Hd)].
        -- exists s, (acc ++ compose_from c [] 0 r). auto.
      * apply IH; [exact Cs|exact Os| | | |exact HR'|intros X; apply app_eq_nil in X; destruct X; discriminate|exact O2].
        -- intros d Hd. apply in_app_iff in Hd. destruct Hd as [Hd|[<-|[]]]; [|split; [exact Fc|lia]]. destruct (HA d Hd) as (A1 & A2 & A3). split; [exact A1|]. lia.
        -- intros _. exists c. split; [apply in_app_iff; right; left; reflexivity|reflexivity].
        -- intros m b y X U. destruct (split_app _ _ _ _ _ X) as [(y' & X')|(m' & -> & X')]; [exact (H3 m b y' X' U)|].
           destruct m' as [|e m']; [|destruct m'; discriminate]. injection X' as <- <-. rewrite app_nil_r in U.
           destruct acc as [|e acc]; [exact E|]. destruct HL as (d & Hd & Ld); [discriminate|]. destruct (U d Hd) as [_ L]. rewrite Ld in L.
           replace (last <? class c) with true in E by lia. exact E.
Qed.
Lemma compose_composed : forall l k, (forall d, In d l -> one_step d = None) -> ordered k l -> composed_b (compose l) /\ forall c, In c (compose l) -> char_ok c.
Proof.
  induction l as [|c r IH]; intros k HR O; [split; [intros x a m b y E; destruct x; discriminate|intros c []]|]. cbn [compose].
  assert (Fc : one_step c = None) by (apply HR; left; reflexivity). assert (HR' : forall d, In d r -> one_step d = None) by (intros d Hd; apply HR; right; exact Hd).
  cbn [ordered] in O. destruct O as [_ O]. destruct (N.eqb_spec (class c) 0) as [Z|Z].
  - destruct (compose_from_composed r c [] 0) as (A & B & _); [exact Z|left; exact Fc|intros d []|intros X; destruct (X eq_refl)|intros m b y X; destruct m; discriminate|exact HR'|reflexivity|exact (ordered_0 _ _ O)|auto].
  - destruct (IH _ HR' O) as [A B]. split.
    + intros x a m b y E Ca U. destruct x as [|e x]; cbn [app] in E; injection E as -> E; [contradiction|]. exact (A _ _ _ _ _ E Ca U).
    + intros d [<-|Hd]; [left; exact Fc|exact (B d Hd)].
Qed.
Lemma nfc_composed s : composed (nfc s).
Proof.
  destruct (compose_composed (nfd s) 0) as [A B]; [apply nfd_fixed|apply reorder_ordered|]. split.
  - intros c I. destruct (B c I) as [F|(a & b & E)]; [right; intros l D; apply one_step_iff in D; congruence|]. left. exists a, b. apply pair_iff, E.
  - intros x a m b y p E Ca U Q. apply class_unique in Ca. apply pair_iff in Q. assert (pair a b = None); [|congruence]. apply (A x a m b y E Ca).
    intros c I. specialize (U c I). destruct (N.eq_dec (class c) 0) as [Z|Z]; [|split; [exact Z|]].
    + exfalso. apply U. exists (class c), (class b). split; [apply class_spec|]. split; [apply class_spec|]. left. exact Z.
    + destruct (N.lt_ge_cases (class c) (class b)) as [L|L]; [exact L|]. exfalso. apply U. exists (class c), (class b). split; [apply class_spec|]. split; [apply class_spec|]. right. exact L.
Qed.

(** ** UTF-8 *)
Lemma good_row_parts c l : In (c, l) decompositions -> forallb good (full c) = true.
Proof. intros I. apply forallb_forall. intros d Hd. apply (row_facts _ _ I), Hd. Qed.
Lemma good_full c : forallb good (full c) = good c.
Proof.
  destruct (one_step c) as [l|] eqn:E; [|rewrite (fixed_full c E); cbn [forallb]; apply andb_true_r]. unfold one_step in E. destruct (is_syllable c) eqn:S.
  - destruct (syllable_eq c S) as (i & j & t & Hi & Hj & Ht & ->). rewrite (full_syllable i j t Hi Hj Ht). assert (G0 : good (hangul_syllable i j t) = true) by (unfold good, hangul_syllable; lia). rewrite G0.
    assert (G1 : good (0x1100 + i) = true) by (unfold good; lia). assert (G2 : good (0x1161 + j) = true) by (unfold good; lia). assert (G3 : good (0x11A7 + t) = true) by (unfold good; lia).
    destruct (t =? 0); cbn [app forallb]; rewrite G1, G2, ?G3; reflexivity.
  - rewrite decomposition_table_eq in E. apply find_table in E. rewrite (good_row_parts c l E). destruct (row_facts _ _ E) as (_ & G & _). symmetry. exact G.
Qed.
Lemma good_flat l : forallb good (flat_map full l) = forallb good l.
Proof. induction l as [|c l IH]; [reflexivity|]. cbn [flat_map forallb]. rewrite forallb_app, good_full, IH. reflexivity. Qed.
Lemma forallb_same {A} (f : A -> bool) l m : (forall x, In x l <-> In x m) -> forallb f l = forallb f m.
Proof. intros H. apply eq_true_iff_eq. rewrite !forallb_forall. split; intros F x I; apply F, H, I. Qed.
Lemma good_nfd s : forallb good (nfd s) = forallb good s.
Proof. unfold nfd. rewrite (forallb_same good _ (flat_map full s)) by (intros x; apply reorder_in). apply good_flat. Qed.
Lemma good_nfc s : forallb good (nfc s) = forallb good s.
Proof. rewrite <- (good_nfd (nfc s)), nfd_nfc. apply good_nfd. Qed.
Lemma utf8_good s : (exists b, utf8_encode s = Ok b) <-> forallb good s = true.
Proof.
  unfold utf8_encode. induction s as [|c s IH]; [split; [reflexivity|exists []; reflexivity]|]. cbn [utf8_opt forallb]. rewrite andb_true_iff, <- IH.
  assert (G : (exists b, utf8_char c = Some b) <-> good c = true).
  { unfold utf8_char, good. destruct (c <? 128)%N eqn:E1; [split; [lia|eauto]|]. destruct (c <? 2048)%N eqn:E2; [split; [lia|eauto]|].
    destruct (c <? 65536)%N eqn:E4.
    - destruct ((55296 <=? c)%N && (c <? 57344)%N) eqn:E3; [split; [intros [b X]; discriminate|lia]|split; [lia|eauto]].
    - destruct (c <? 1114112)%N eqn:E5; [split; [lia|eauto]|split; [intros [b X]; discriminate|lia]]. }
  rewrite <- G. destruct (utf8_char c) as [x|]; [|split; [intros [b X]; discriminate|intros [[b X] _]; discriminate]].
  destruct (utf8_opt s) as [y|]; split; eauto; intros [b X]; try discriminate. destruct X; discriminate.
Qed.

(** ** Texts without combining marks *)
(** Each character below U+0300 is a starter, followed by parts, or itself, and
    composing the parts gives it back. *)
Fixpoint absorb (s : N) (m : list N) : option N := match m with [] => Some s | c :: r => match pair s c with Some p => absorb p r | None => None end end.
Definition plain_ok (c : N) : bool :=
  match full c with
  | b :: m => (class b =? 0) && (b <? 0x300) && forallb (fun d => negb (class d =? 0)) m && list_eqb (reorder m) m && match absorb b m with Some q => q =? c | None => false end
  | [] => false
  end.
Definition below_300 : list N := List.map N.of_nat (seq 0 768).
Lemma plain_check : forallb plain_ok below_300 = true. Proof. vm_compute. reflexivity. Qed.
Lemma seconds_check : forallb (fun e => 0x300 <=? fst (snd e)) composites = true. Proof. vm_compute. reflexivity. Qed.
Lemma pair_second a b p : pair a b = Some p -> 0x300 <= b.
Proof.
  intros E. apply pair_iff in E. destruct E as [D NE]. apply decomposes_pair in D. destruct D as [I|[(i & j & Hi & Hj & _ & _ & ->)|(i & j & t & Hi & Hj & Ht & _ & _ & ->)]]; [|lia|lia].
  pose proof (proj1 (forallb_forall _ _) seconds_check _ (proj2 (composites_iff a b p) (conj I NE))) as S. cbn [fst snd] in S. lia.
Qed.
Lemma absorb_from r : forall m s q, absorb s m = Some q -> compose_from s [] 0 (m ++ r) = compose_from q [] 0 r.
Proof. induction m as [|c m IH]; intros s q; cbn [absorb app compose_from]; [intros [= ->]; reflexivity|]. destruct (pair s c) as [p|]; [apply IH|discriminate]. Qed.
Definition plain (s : pystr) : Prop := Forall (fun c => c < 0x300) s.
Lemma plain_char c : c < 0x300 -> exists b m, full c = b :: m /\ class b = 0 /\ b < 0x300 /\ ordered 0 m /\ absorb b m = Some c.
Proof.
  intros L. assert (I : In c below_300). { unfold below_300. apply in_map_iff. exists (N.to_nat c). rewrite in_seq. lia. }
  pose proof (proj1 (forallb_forall _ _) plain_check _ I) as E. unfold plain_ok in E. destruct (full c) as [|b m]; [discriminate|]. rewrite !andb_true_iff in E.
  destruct E as ((((E1 & E2) & _) & E4) & E5). exists b, m. split; [reflexivity|]. split; [lia|]. split; [lia|]. split.
  - apply list_eqb_eq in E4. rewrite <- E4. apply reorder_ordered.
  - destruct (absorb b m) as [q|]; [|discriminate]. f_equal. lia.
Qed.
Lemma ordered_app k a b : ordered k a -> match b with [] => True | c :: _ => class c = 0 end -> ordered 0 b -> ordered k (a ++ b).
Proof.
  revert k. induction a as [|c a IH]; intros k O H Ob; cbn [app].
  - destruct b as [|c b]; [exact I|]. cbn [ordered] in *. tauto.
  - cbn [ordered] in *. destruct O as [O1 O2]. split; [exact O1|]. apply IH; assumption.
Qed.
Lemma plain_flat s : plain s -> ordered 0 (flat_map full s) /\ match flat_map full s with [] => True | c :: _ => class c = 0 end.
Proof.
  induction 1 as [|c s L _ [IH1 IH2]]; [split; exact I|]. cbn [flat_map]. destruct (plain_char c L) as (b & m & -> & Cb & _ & O & _). cbn [app]. split; [|exact Cb].
  cbn [ordered]. split; [lia|]. rewrite Cb. apply ordered_app; assumption.
Qed.
Lemma plain_from s : plain s -> forall c, c < 0x300 -> compose_from c [] 0 (flat_map full s) = c :: s.
Proof.
  induction 1 as [|d s L _ IH]; intros c Lc; [reflexivity|]. cbn [flat_map]. destruct (plain_char d L) as (b & m & -> & Cb & Lb & _ & A). cbn [app compose_from].
  destruct (pair c b) as [q|] eqn:Q; [pose proof (pair_second _ _ _ Q); lia|]. rewrite Cb. change (0 =? 0) with true. cbv iota. cbn [app].
  f_equal. rewrite (absorb_from _ _ _ _ A). apply IH, L.
Qed.
Lemma plain_nfc s : plain s -> nfc s = s.
Proof.
  intros H. unfold nfc, nfd. rewrite (ordered_reorder _ 0) by (apply plain_flat, H). destruct H as [|c s L H]; [reflexivity|]. cbn [flat_map].
  destruct (plain_char c L) as (b & m & -> & Cb & _ & _ & A). cbn [app compose]. rewrite Cb. change (0 =? 0) with true. cbv iota.
  rewrite (absorb_from _ _ _ _ A). apply plain_from; assumption.
Qed.
