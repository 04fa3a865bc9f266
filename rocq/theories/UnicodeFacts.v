(** * UnicodeFacts: decomposition, ordering and composition *)
From Coq Require Import Lia ZifyBool ZifyNat ZifyN.
From Verif Require Import Py PyFacts Unicode SpecUnicode.
Local Open Scope N_scope.

(** ** Tries *)
Lemma get_put_same {A} p (x : A) : forall t, get p (put p x t) = Some x.
Proof. induction p as [p IH|p IH|]; intros [|l v r]; cbn [put get]; auto. Qed.
Lemma get_put_other {A} p (x : A) : forall q t, p <> q -> get q (put p x t) = get q t.
Proof.
  induction p as [p IH|p IH|]; intros [q|q|] [|l v r] NE; cbn [put get]; try reflexivity; try congruence;
    rewrite ?IH by congruence; try destruct q; reflexivity.
Qed.
Lemma find_put {A} c (x : A) d t : find d (put (N.succ_pos c) x t) = if d =? c then Some x else find d t.
Proof.
  unfold find. destruct (N.eqb_spec d c) as [->|NE]; [apply get_put_same|]. apply get_put_other. intros E. apply NE.
  rewrite <- (N.pred_succ d), <- (N.pred_succ c), <- !N.succ_pos_spec, E. reflexivity.
Qed.
Lemma find_leaf {A} c : find c (@Leaf A) = None. Proof. unfold find. destruct (N.succ_pos c); reflexivity. Qed.
Lemma find_table {A} c (x : A) l : find c (table l) = Some x -> In (c, x) l.
Proof.
  induction l as [|[d y] l IH]; [cbn [table fold_right]; rewrite find_leaf; discriminate|]. change (table ((d, y) :: l)) with (put (N.succ_pos d) y (table l)). rewrite find_put.
  destruct (N.eqb_spec c d) as [->|]; [intros [= ->]; left; reflexivity|]. intros H. right. auto.
Qed.
Lemma find_table_none {A} c (l : list (N * A)) : find c (table l) = None -> forall x, ~ In (c, x) l.
Proof.
  induction l as [|[d y] l IH]; [intros _ x []|]. change (table ((d, y) :: l)) with (put (N.succ_pos d) y (table l)). rewrite find_put.
  destruct (N.eqb_spec c d) as [->|NE]; [discriminate|]. intros H x [E|I]; [injection E as -> _; contradiction|exact (IH H x I)].
Qed.
Lemma decomposition_table_eq : decomposition_table = table decompositions. Proof. vm_cast_no_check (eq_refl decomposition_table). Qed.
Lemma class_table_eq : class_table = table combining_classes. Proof. vm_cast_no_check (eq_refl class_table). Qed.
Definition composite_insert (e : N * (N * N)) (t : trie (list (N * N))) : trie (list (N * N)) :=
  put (N.succ_pos (fst e)) (snd e :: match find (fst e) t with Some l => l | None => [] end) t.
Lemma composite_table_eq : composite_table = fold_right composite_insert Leaf composites. Proof. vm_cast_no_check (eq_refl composite_table). Qed.
Lemma find_composites a l : forall L, find a (fold_right composite_insert Leaf L) = Some l -> forall b p, In (b, p) l -> In (a, (b, p)) L.
Proof.
  intros L. revert l. induction L as [|[a' [b' p']] L IH]; intros l; [cbn [fold_right]; rewrite find_leaf; discriminate|]. cbn [fold_right]. unfold composite_insert at 1. cbn [fst snd]. rewrite find_put.
  destruct (N.eqb_spec a a') as [->|NE].
  - intros [= <-] b p [E|I]; [injection E as -> ->; left; reflexivity|]. right.
    destruct (find a' (fold_right composite_insert Leaf L)) as [l'|]; [|destruct I]. exact (IH l' eq_refl b p I).
  - intros E b p I. right. exact (IH l E b p I).
Qed.
Lemma composites_in a b p : In (a, (b, p)) composites -> In (p, [a; b]) decompositions.
Proof.
  unfold composites. rewrite in_flat_map. intros ([c l] & I & J). destruct l as [|x [|y [|z l]]]; try destruct J.
  destruct (existsb (N.eqb c) composition_exclusions); [destruct J|]. destruct J as [E|[]]. injection E as -> -> ->. exact I.
Qed.

(** ** Combining classes *)
Lemma class_spec c : combining_class c (class c).
Proof.
  unfold class. rewrite class_table_eq. destruct (find c (table combining_classes)) as [k|] eqn:E.
  - left. apply find_table, E.
  - right. split; [reflexivity|]. intros k' I. exact (find_table_none _ _ E _ I).
Qed.
(** every row of the two tables is the one found *)
Lemma classes_check : forallb (fun e => match find (fst e) class_table with Some k => k =? snd e | None => false end) combining_classes = true.
Proof. vm_compute. reflexivity. Qed.
Lemma class_unique c k : combining_class c k -> class c = k.
Proof.
  intros [I|[-> H]].
  - pose proof (proj1 (forallb_forall _ _) classes_check _ I) as E. cbn [fst snd] in E. unfold class. destruct (find c class_table); [lia|discriminate].
  - unfold class. destruct (find c class_table) as [k|] eqn:E; [|reflexivity]. rewrite class_table_eq in E. destruct (H _ (find_table _ _ _ E)).
Qed.

(** ** Decomposition *)
Fixpoint list_eqb (a b : list N) : bool :=
  match a, b with [], [] => true | x :: a, y :: b => (x =? y) && list_eqb a b | _, _ => false end.
Lemma list_eqb_eq a b : list_eqb a b = true -> a = b.
Proof. revert b. induction a as [|x a IH]; intros [|y b]; cbn [list_eqb]; try discriminate; [reflexivity|]. intros H. apply andb_prop in H as [H1 H2]. f_equal; [lia|auto]. Qed.
Definition good (d : N) : bool := negb ((0xD800 <=? d) && (d <=? 0xDFFF)) && (d <? 0x110000).
Definition row_ok (e : N * list N) : bool :=
  negb (is_syllable (fst e)) && good (fst e) && match find (fst e) decomposition_table with Some l => list_eqb l (snd e) | None => false end &&
  list_eqb (full (fst e)) (flat_map full (snd e)) && forallb (fun d => match one_step d with None => good d | Some _ => false end) (full (fst e)).
Lemma rows_check : forallb row_ok decompositions = true.
Proof. vm_compute. reflexivity. Qed.
Lemma row_facts c l : In (c, l) decompositions ->
  is_syllable c = false /\ good c = true /\ find c decomposition_table = Some l /\ full c = flat_map full l /\
  forall d, In d (full c) -> one_step d = None /\ good d = true.
Proof.
  intros I. pose proof (proj1 (forallb_forall _ _) rows_check _ I) as E. unfold row_ok in E. cbn [fst snd] in E. rewrite !andb_true_iff in E.
  destruct E as ((((E1 & E2) & E3) & E4) & E5). apply list_eqb_eq in E4. split; [destruct (is_syllable c); [discriminate|reflexivity]|]. split; [exact E2|].
  split; [destruct (find c decomposition_table) as [l'|]; [apply list_eqb_eq in E3; congruence|discriminate]|]. split; [exact E4|].
  intros d Hd. pose proof (proj1 (forallb_forall _ _) E5 _ Hd) as E. cbv beta in E. destruct (one_step d); [discriminate|auto].
Qed.
(** the parts of Hangul syllables have no decomposition *)
Definition jamo : list N := List.map (fun i => 0x1100 + N.of_nat i) (seq 0 19) ++ List.map (fun i => 0x1161 + N.of_nat i) (seq 0 21) ++ List.map (fun i => 0x11A8 + N.of_nat i) (seq 0 27).
Lemma jamo_check : forallb (fun d => match one_step d with None => true | Some _ => false end) jamo = true.
Proof. vm_compute. reflexivity. Qed.
Lemma jamo_fixed d : (0x1100 <= d < 0x1100 + 19) \/ (0x1161 <= d < 0x1161 + 21) \/ (0x11A8 <= d < 0x11A8 + 27) -> one_step d = None.
Proof.
  intros H. assert (I : In d jamo).
  { unfold jamo. rewrite !in_app_iff, !in_map_iff. destruct H as [H|[H|H]].
    - left. exists (N.to_nat (d - 0x1100)). rewrite in_seq. lia.
    - right; left. exists (N.to_nat (d - 0x1161)). rewrite in_seq. lia.
    - right; right. exists (N.to_nat (d - 0x11A8)). rewrite in_seq. lia. }
  pose proof (proj1 (forallb_forall _ _) jamo_check _ I) as E. cbv beta in E. destruct (one_step d); [discriminate|reflexivity].
Qed.
Lemma fixed_full d : one_step d = None -> full d = [d].
Proof. intros H. unfold full. cbn [decompose]. rewrite H. reflexivity. Qed.
Lemma syllable_eq c : is_syllable c = true -> exists l v t, l < 19 /\ v < 21 /\ t < 28 /\ c = hangul_syllable l v t.
Proof.
  unfold is_syllable. intros H. assert (R : 0xAC00 <= c <= 0xD7A3) by lia. clear H. exists ((c - 0xAC00) / 588), ((c - 0xAC00) mod 588 / 28), ((c - 0xAC00) mod 28).
  unfold hangul_syllable. pose proof (N.mod_lt (c - 0xAC00) 28 ltac:(lia)). pose proof (N.mod_lt (c - 0xAC00) 588 ltac:(lia)).
  pose proof (N.div_mod (c - 0xAC00) 588 ltac:(lia)). pose proof (N.div_mod ((c - 0xAC00) mod 588) 28 ltac:(lia)).
  assert (E : ((c - 0xAC00) mod 588) mod 28 = (c - 0xAC00) mod 28) by (change 588 with (28 * 21); rewrite N.mod_mul_r by lia; rewrite N.mul_comm, N.mod_add by lia; apply N.mod_mod; lia).
  assert ((c - 0xAC00) / 588 < 19) by (apply N.div_lt_upper_bound; lia). assert ((c - 0xAC00) mod 588 / 28 < 21) by (apply N.div_lt_upper_bound; lia). lia.
Qed.
Lemma syllable_parts_eq l v t : l < 19 -> v < 21 -> t < 28 ->
  is_syllable (hangul_syllable l v t) = true /\
  syllable_parts (hangul_syllable l v t) = if t =? 0 then [0x1100 + l; 0x1161 + v] else [hangul_syllable l v 0; 0x11A7 + t].
Proof.
  intros Hl Hv Ht. unfold hangul_syllable. split; [unfold is_syllable; lia|]. unfold syllable_parts. cbv zeta.
  replace (0xAC00 + (l * 21 + v) * 28 + t - 0xAC00) with (t + (l * 21 + v) * 28) by lia. rewrite N.mod_add by lia. rewrite (N.mod_small t) by lia.
  destruct (N.eqb_spec t 0) as [->|NE].
  - rewrite N.add_0_l. replace ((l * 21 + v) * 28) with (v * 28 + l * 588) by lia. rewrite N.div_add, N.mod_add by lia.
    rewrite (N.div_small (v * 28)) by lia. rewrite (N.mod_small (v * 28)) by lia. rewrite N.div_mul by lia. reflexivity.
  - f_equal. lia.
Qed.
Lemma one_step_iff c l : one_step c = Some l <-> decomposes c l.
Proof.
  unfold one_step. destruct (is_syllable c) eqn:S.
  - destruct (syllable_eq c S) as (i & j & t & Hi & Hj & Ht & ->). destruct (syllable_parts_eq i j t Hi Hj Ht) as [_ ->]. split.
    + intros [= <-]. destruct (N.eqb_spec t 0) as [->|]; [apply decomposes_lv|apply decomposes_lvt]; lia.
    + intros D. f_equal. inversion D as [c' l' I|i' j' Hi' Hj' E|i' j' t' Hi' Hj' Ht' E].
      * destruct (row_facts _ _ I) as (X & _). congruence.
      * unfold hangul_syllable in E. assert (i' = i /\ j' = j /\ t = 0) as (-> & -> & ->) by lia. reflexivity.
      * unfold hangul_syllable in E. assert (i' = i /\ j' = j /\ t' = t) as (-> & -> & ->) by lia. destruct (N.eqb_spec t 0); [lia|reflexivity].
  - split.
    + intros E. rewrite decomposition_table_eq in E. apply decomposes_table, find_table, E.
    + intros D. inversion D as [c' l' I|i' j' Hi' Hj' E|i' j' t' Hi' Hj' Ht' E].
      * apply (row_facts _ _ I).
      * exfalso. subst c. destruct (syllable_parts_eq i' j' 0 Hi' Hj' ltac:(lia)). congruence.
      * exfalso. subst c. destruct (syllable_parts_eq i' j' t' Hi' Hj' ltac:(lia)). congruence.
Qed.
(** Full decomposition: repeat one step until nothing can be decomposed. *)
Lemma full_syllable l v t : l < 19 -> v < 21 -> t < 28 ->
  full (hangul_syllable l v t) = [0x1100 + l; 0x1161 + v] ++ (if t =? 0 then [] else [0x11A7 + t]).
Proof.
  intros Hl Hv Ht. assert (J1 : one_step (0x1100 + l) = None) by (apply jamo_fixed; lia). assert (J2 : one_step (0x1161 + v) = None) by (apply jamo_fixed; lia).
  destruct (syllable_parts_eq l v t Hl Hv Ht) as [S P]. destruct (syllable_parts_eq l v 0 Hl Hv ltac:(lia)) as [S0 P0]. cbn [N.eqb] in P0.
  assert (E0 : one_step (hangul_syllable l v 0) = Some [0x1100 + l; 0x1161 + v]) by (unfold one_step; rewrite S0; f_equal; exact P0).
  unfold full. destruct (N.eqb_spec t 0) as [->|NE].
  - cbn [decompose]. rewrite E0. cbn [flat_map]. rewrite J1, J2. reflexivity.
  - assert (J3 : one_step (0x11A7 + t) = None) by (apply jamo_fixed; lia).
    assert (E : one_step (hangul_syllable l v t) = Some [hangul_syllable l v 0; 0x11A7 + t]) by (unfold one_step; rewrite S; f_equal; exact P).
    cbn [decompose]. rewrite E. cbn [flat_map]. rewrite E0, J3. cbn [flat_map]. rewrite J1, J2. reflexivity.
Qed.
Lemma full_step c l : decomposes c l -> full c = flat_map full l.
Proof.
  intros D. inversion D as [c' l' I|i j Hi Hj|i j t Hi Hj Ht].
  - apply (row_facts _ _ I).
  - rewrite (full_syllable i j 0) by lia. cbn [flat_map]. rewrite !fixed_full by (apply jamo_fixed; lia). reflexivity.
  - rewrite (full_syllable i j t) by lia. cbn [flat_map]. rewrite (full_syllable i j 0) by lia. rewrite fixed_full by (apply jamo_fixed; lia).
    destruct (N.eqb_spec t 0); [lia|reflexivity].
Qed.
Lemma full_fixed c d : In d (full c) -> one_step d = None.
Proof.
  destruct (one_step c) as [l|] eqn:E; [|rewrite (fixed_full c E); intros [<-|[]]; exact E].
  apply one_step_iff in E. inversion E as [c' l' I|i j Hi Hj|i j t Hi Hj Ht].
  - intros Hd. apply (row_facts _ _ I), Hd.
  - rewrite (full_syllable i j 0) by lia. cbn [app N.eqb]. intros [<-|[<-|[]]]; apply jamo_fixed; lia.
  - rewrite (full_syllable i j t) by lia. destruct (N.eqb_spec t 0); [lia|]. cbn [app]. intros [<-|[<-|[<-|[]]]]; apply jamo_fixed; lia.
Qed.
Lemma full_full l : flat_map full (flat_map full l) = flat_map full l.
Proof.
  assert (H : forall m, (forall d, In d m -> one_step d = None) -> flat_map full m = m).
  { induction m as [|d m IH]; intros F; [reflexivity|]. cbn [flat_map]. rewrite (fixed_full d) by (apply F; left; reflexivity). rewrite IH; [reflexivity|]. intros x Hx. apply F. right. exact Hx. }
  apply H. intros d Hd. apply in_flat_map in Hd. destruct Hd as (c & _ & Hd). exact (full_fixed _ _ Hd).
Qed.
Lemma fixed_flat l : (forall d, In d l -> one_step d = None) -> flat_map full l = l.
Proof.
  induction l as [|d m IH]; intros F; [reflexivity|]. cbn [flat_map]. rewrite (fixed_full d) by (apply F; left; reflexivity). rewrite IH; [reflexivity|]. intros x Hx. apply F. right. exact Hx.
Qed.

(** ** Ordering *)
Lemma insert_in c l x : In x (insert c l) <-> x = c \/ In x l.
Proof.
  induction l as [|d r IH]; cbn [insert]; [cbn [In]; firstorder congruence|]. destruct (_ && _); cbn [In]; [rewrite IH|]; firstorder congruence.
Qed.
Lemma reorder_in l x : In x (reorder l) <-> In x l.
Proof. induction l as [|c l IH]; [reflexivity|]. cbn [reorder fold_right]. rewrite insert_in. fold (reorder l). rewrite IH. cbn [In]. firstorder congruence. Qed.
(** [k]: class of the character before *)
Fixpoint ordered (k : N) (l : list N) : Prop :=
  match l with [] => True | c :: r => (class c = 0 \/ k <= class c) /\ ordered (class c) r end.
Lemma ordered_weaken k k' l : ordered k l -> k' <= k -> ordered k' l.
Proof. destruct l; cbn [ordered]; intuition lia. Qed.
Lemma insert_id c l : ordered (class c) l -> insert c l = c :: l.
Proof. destruct l as [|d r]; cbn [insert ordered]; [reflexivity|]. intros [H _]. replace ((0 <? class d) && (class d <? class c)) with false by lia. reflexivity. Qed.
Lemma insert_ordered c l : forall k, ordered k l -> class c = 0 \/ k <= class c -> ordered k (insert c l).
Proof.
  induction l as [|d r IH]; intros k O H; cbn [insert]; [cbn [ordered]; auto|]. cbn [ordered] in O. destruct O as [O1 O2].
  destruct ((0 <? class d) && (class d <? class c)) eqn:E; cbn [ordered].
  - split; [exact O1|]. apply IH; [exact O2|lia].
  - split; [exact H|]. split; [lia|exact O2].
Qed.
Lemma ordered_0 k l : ordered k l -> ordered 0 l.
Proof. intros H. apply (ordered_weaken _ 0 _ H). lia. Qed.
Lemma reorder_ordered l : ordered 0 (reorder l).
Proof. induction l as [|c l IH]; [exact I|]. cbn [reorder fold_right]. apply insert_ordered; [exact IH|lia]. Qed.
Lemma ordered_reorder l : forall k, ordered k l -> reorder l = l.
Proof.
  induction l as [|c l IH]; intros k H; [reflexivity|]. cbn [ordered] in H. destruct H as [_ H]. cbn [reorder fold_right]. fold (reorder l). rewrite (IH _ H). apply insert_id, H.
Qed.
Lemma insert_swap c d l : class c <> 0 -> class d <> 0 -> class c <> class d -> insert c (insert d l) = insert d (insert c l).
Proof.
  intros Hc Hd NE. induction l as [|x r IH]; cbn [insert].
  - destruct (N.lt_trichotomy (class c) (class d)) as [L|[L|L]]; [|contradiction|].
    + replace ((0 <? class d) && (class d <? class c)) with false by lia. replace ((0 <? class c) && (class c <? class d)) with true by lia. reflexivity.
    + replace ((0 <? class d) && (class d <? class c)) with true by lia. replace ((0 <? class c) && (class c <? class d)) with false by lia. reflexivity.
  - destruct ((0 <? class x) && (class x <? class d)) eqn:E1; destruct ((0 <? class x) && (class x <? class c)) eqn:E2; cbn [insert]; rewrite ?E1, ?E2.
    + rewrite IH. reflexivity.
    + replace ((0 <? class c) && (class c <? class d)) with true by lia. cbn [insert]. rewrite ?E1. reflexivity.
    + replace ((0 <? class d) && (class d <? class c)) with true by lia. cbn [insert]. rewrite ?E2. reflexivity.
    + destruct (N.lt_trichotomy (class c) (class d)) as [L|[L|L]]; [|contradiction|].
      * replace ((0 <? class d) && (class d <? class c)) with false by lia. replace ((0 <? class c) && (class c <? class d)) with true by lia. rewrite ?E1. reflexivity.
      * replace ((0 <? class d) && (class d <? class c)) with true by lia. replace ((0 <? class c) && (class c <? class d)) with false by lia. rewrite ?E2. reflexivity.
Qed.
Lemma reorder_app a b : reorder (a ++ b) = fold_right insert (reorder b) a.
Proof. apply fold_right_app. Qed.
Lemma reorder_cong a b b' : reorder b = reorder b' -> reorder (a ++ b) = reorder (a ++ b').
Proof. intros H. rewrite !reorder_app, H. reflexivity. Qed.
Lemma reorder_tail a b : reorder (a ++ reorder b) = reorder (a ++ b).
Proof. apply reorder_cong. apply (ordered_reorder _ 0), reorder_ordered. Qed.
Lemma reorder_move c acc r : class c <> 0 -> (forall x, In x acc -> class x <> 0 /\ class x <> class c) -> reorder (acc ++ c :: r) = reorder (c :: acc ++ r).
Proof.
  intros Hc. induction acc as [|x acc IH]; intros H; [reflexivity|]. destruct (H x (or_introl eq_refl)) as [H1 H2].
  change ((x :: acc) ++ c :: r) with ([x] ++ (acc ++ c :: r)). rewrite (reorder_cong [x] _ (c :: acc ++ r)) by (apply IH; intros y Hy; apply H; right; exact Hy).
  cbn [app reorder fold_right]. apply insert_swap; auto.
Qed.

(** ** Composition *)
Lemma pair_decomposes a b p : pair a b = Some p -> decomposes p [a; b].
Proof.
  unfold pair. destruct ((0x1100 <=? a) && (a <=? 0x1112) && (0x1161 <=? b) && (b <=? 0x1175)) eqn:E1.
  - intros [= <-]. pose proof (decomposes_lv (a - 0x1100) (b - 0x1161) ltac:(lia) ltac:(lia)) as D. unfold hangul_syllable in D. rewrite N.add_0_r in D.
    replace (0x1100 + (a - 0x1100)) with a in D by lia. replace (0x1161 + (b - 0x1161)) with b in D by lia. exact D.
  - destruct (is_syllable a && ((a - 0xAC00) mod 28 =? 0) && (0x11A8 <=? b) && (b <=? 0x11C2)) eqn:E2.
    + intros [= <-]. rewrite !andb_true_iff in E2. destruct E2 as (((S & M) & B1) & B2). destruct (syllable_eq a S) as (l & v & t & Hl & Hv & Ht & ->).
      assert (t = 0).
      { unfold hangul_syllable in M. replace (0xAC00 + (l * 21 + v) * 28 + t - 0xAC00) with (t + (l * 21 + v) * 28) in M by lia. rewrite N.mod_add in M by lia. rewrite N.mod_small in M by lia. lia. }
      subst t. pose proof (decomposes_lvt l v (b - 0x11A7) Hl Hv ltac:(lia)) as D. replace (0x11A7 + (b - 0x11A7)) with b in D by lia.
      replace (hangul_syllable l v 0 + (b - 0x11A7)) with (hangul_syllable l v (b - 0x11A7)) by (unfold hangul_syllable; lia). exact D.
    + clear E1 E2. destruct (find a composite_table) as [l|] eqn:F; [|discriminate]. destruct (List.find (fun e => fst e =? b) l) as [[b' p']|] eqn:G; [|discriminate].
      intros [= <-]. apply find_some in G. destruct G as [I Eb]. cbn [fst snd] in Eb. assert (b' = b) by lia. subst b'. rewrite composite_table_eq in F. apply decomposes_table, composites_in.
      exact (find_composites a l composites F b p' I).
Qed.
Lemma pair_full a b p : pair a b = Some p -> full p = full a ++ full b.
Proof. intros H. rewrite (full_step p [a; b]) by (apply pair_decomposes, H). cbn [flat_map]. rewrite app_nil_r. reflexivity. Qed.

Lemma compose_from_nfd : forall r s acc last,
  (forall d, In d acc -> one_step d = None /\ class d <> 0 /\ class d <= last) -> (forall d, In d r -> one_step d = None) ->
  (acc = [] -> last = 0) -> ordered last r ->
  reorder (flat_map full (compose_from s acc last r)) = reorder (full s ++ acc ++ r).
Proof.
  induction r as [|c r IH]; intros s acc last HA HR H0 O.
  - cbn [compose_from flat_map]. rewrite app_nil_r. rewrite fixed_flat; [reflexivity|]. intros d Hd. apply HA, Hd.
  - cbn [compose_from]. assert (Fc : one_step c = None) by (apply HR; left; reflexivity). assert (HR' : forall d, In d r -> one_step d = None) by (intros d Hd; apply HR; right; exact Hd).
    cbn [ordered] in O. destruct O as [O1 O2].
    destruct (if match acc with [] => true | _ => last <? class c end then pair s c else None) as [p|] eqn:E.
    + assert (U : acc = [] \/ last < class c) by (destruct acc; [left; reflexivity|right]; destruct (N.ltb_spec last (class c)); [assumption|discriminate]).
      assert (PP : pair s c = Some p) by (destruct (match acc with [] => true | _ => last <? class c end); [exact E|discriminate]).
      rewrite IH.
      * rewrite (pair_full _ _ _ PP), (fixed_full c Fc), <- app_assoc. apply reorder_cong. symmetry. destruct U as [->|U]; [reflexivity|]. apply reorder_move; [lia|].
        intros x Hx. destruct (HA x Hx) as (_ & Z & L). lia.
      * exact HA.
      * exact HR'.
      * exact H0.
      * apply (ordered_weaken _ _ _ O2). destruct U as [U|U]; [rewrite (H0 U)|]; lia.
    + clear E. destruct (N.eqb_spec (class c) 0) as [Z|Z].
      * cbn [flat_map]. rewrite flat_map_app, (fixed_flat acc) by (intros d Hd; apply HA, Hd). apply reorder_cong, reorder_cong.
        rewrite IH; [rewrite (fixed_full c Fc); reflexivity|intros d []|exact HR'|reflexivity|exact (ordered_0 _ _ O2)].
      * rewrite IH; [rewrite <- app_assoc; reflexivity| |exact HR'| |exact O2].
        -- intros d Hd. apply in_app_iff in Hd. destruct Hd as [Hd|[<-|[]]]; [|split; [exact Fc|lia]]. destruct (HA d Hd) as (A1 & A2 & A3). split; [exact A1|]. lia.
        -- intros X. apply app_eq_nil in X. destruct X; discriminate.
Qed.
Lemma compose_nfd : forall l k, (forall d, In d l -> one_step d = None) -> ordered k l -> reorder (flat_map full (compose l)) = reorder l.
Proof.
  induction l as [|c r IH]; intros k HR O; [reflexivity|]. cbn [compose]. assert (Fc : one_step c = None) by (apply HR; left; reflexivity).
  assert (HR' : forall d, In d r -> one_step d = None) by (intros d Hd; apply HR; right; exact Hd). cbn [ordered] in O. destruct O as [_ O].
  destruct (class c =? 0) eqn:Z.
  - rewrite compose_from_nfd; [rewrite (fixed_full c Fc); reflexivity|intros d []|exact HR'|reflexivity|exact (ordered_0 _ _ O)].
  - cbn [flat_map]. rewrite (fixed_full c Fc). apply (reorder_cong [c]). exact (IH _ HR' O).
Qed.
Lemma nfd_fixed s d : In d (nfd s) -> one_step d = None.
Proof. unfold nfd. rewrite reorder_in, in_flat_map. intros (c & _ & H). exact (full_fixed _ _ H). Qed.
Lemma nfd_nfc s : nfd (nfc s) = nfd s.
Proof.
  unfold nfd at 1, nfc. rewrite (compose_nfd (nfd s) 0); [|apply nfd_fixed|apply reorder_ordered]. apply (ordered_reorder _ 0), reorder_ordered.
Qed.
Lemma nfd_nfd s : nfd (nfd s) = nfd s.
Proof. unfold nfd at 1. rewrite fixed_flat by apply nfd_fixed. apply (ordered_reorder _ 0), reorder_ordered. Qed.
Lemma nfc_nfc s : nfc (nfc s) = nfc s.
Proof. unfold nfc at 1. rewrite nfd_nfc. reflexivity. Qed.
Lemma nfc_nfd s : nfc (nfd s) = nfc s.
Proof. unfold nfc. rewrite nfd_nfd. reflexivity. Qed.
Lemma nfc_eq_nfd s t : nfc s = nfc t <-> nfd s = nfd t.
Proof. split; intros H; [rewrite <- (nfd_nfc s), <- (nfd_nfc t), H|unfold nfc; rewrite H]; reflexivity. Qed.
