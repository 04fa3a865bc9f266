(** * C65, C66: histories of calls - calls do not influence each other, and
    random bytes are used once. *)
From Coq Require Import Lia.
From Verif Require Import Py Prims Spec PyFacts Utils UtilsFacts SpecBip38 SpecRecords SpecSession Cryptocurrencies Bip38 History CodecFacts2 Bip38Facts Sessions
  Toy PropIntermediate PropCreate PropEncrypt PropSession PropUnique.

(** The constructor calls of a history, in order *)
Definition creations (h : list op) : list (coin_arg * pystr) :=
  flat_map (fun o => match o with New c n => [(c, n)] | _ => [] end) h.
(** The object an operation is called on, and the same call on the first object *)
Definition object_of (o : op) : option nat :=
  match o with
  | New _ _ | Intermediate _ _ _ _ => None
  | Encrypt i _ _ _ | Create i _ _ _ _ | Confirm i _ _ _ _ | Decrypt i _ _ _ _ => Some i
  end.
Definition on_first (o : op) : op :=
  match o with
  | Encrypt _ w p n => Encrypt 0 w p n
  | Create _ c t s n => Create 0 c t s n
  | Confirm _ p c n d => Confirm 0 p c n d
  | Decrypt _ e p n d => Decrypt 0 e p n d
  | o => o
  end.
(** No salt or seed was given where one can be given. *)
Definition wants_random (o : op) : Prop :=
  match o with
  | Intermediate _ _ _ arg | Create _ _ _ arg _ => arg = PNone \/ arg = PStr [] \/ arg = PBytes [] \/ arg = POther false
  | _ => False
  end.

Lemma truthy_false arg : truthy arg = false <-> (arg = PNone \/ arg = PStr [] \/ arg = PBytes [] \/ arg = POther false).
Proof.
  split.
  - destruct arg as [| [|] | [|] | [|]]; cbn; intros H; try discriminate; auto.
  - intros [->|[->|[->| ->]]]; reflexivity.
Qed.
Lemma exec_objects P source s o : objects (fst (exec P source s o)) = objects s ++ List.map (fun x => bip38_init (fst x) (snd x)) (creations [o]).
Proof.
  unfold creations. cbn [flat_map]. rewrite app_nil_r.
  destruct o as [c n|pw l q salt|i w p n|i c t seed n|i p c n d|i e p n d]; cbn [exec List.map fst snd]; try (rewrite app_nil_r).
  - reflexivity.
  - destruct (truthy salt); reflexivity.
  - unfold with_object. destruct (nth_error _ i) as [[|]|]; reflexivity.
  - unfold with_object. destruct (nth_error _ i) as [[self|]|]; try reflexivity. destruct (select_network self n); [destruct (truthy seed)|]; reflexivity.
  - unfold with_object. destruct (nth_error _ i) as [[|]|]; reflexivity.
  - unfold with_object. destruct (nth_error _ i) as [[|]|]; reflexivity.
Qed.
Lemma run_app P source : forall h1 s h2, run P source s (h1 ++ h2) =
  (fst (run P source (fst (run P source s h1)) h2), snd (run P source s h1) ++ snd (run P source (fst (run P source s h1)) h2)).
Proof.
  induction h1 as [|o h1 IH]; intros s h2.
  - cbn [app run fst snd]. destruct (run P source s h2); reflexivity.
  - cbn [app run]. destruct (exec P source s o) as [s1 x]. rewrite IH. destruct (run P source s1 h1) as [s2 l]. reflexivity.
Qed.
Lemma run_objects P source : forall h s, objects (fst (run P source s h)) = objects s ++ List.map (fun x => bip38_init (fst x) (snd x)) (creations h).
Proof.
  induction h as [|o h IH]; intros s; [cbn; rewrite app_nil_r; reflexivity|].
  cbn [run]. pose proof (exec_objects P source s o) as E. destruct (exec P source s o) as [s1 x]. specialize (IH s1).
  destruct (run P source s1 h) as [s2 l]. cbn [fst] in *. rewrite IH, E, <- app_assoc, <- map_app. unfold creations. cbn [flat_map]. rewrite app_nil_r. reflexivity.
Qed.
Lemma run_length P source : forall h s, List.length (snd (run P source s h)) = List.length h.
Proof.
  induction h as [|o h IH]; intros s; [reflexivity|]. cbn [run]. destruct (exec P source s o) as [s1 x]. specialize (IH s1).
  destruct (run P source s1 h) as [s2 l]. cbn in *. congruence.
Qed.
Lemma trace_nth P source h1 o h2 : nth_error (trace P source (h1 ++ o :: h2)) (List.length h1) =
  Some (snd (exec P source (fst (run P source initial h1)) o)).
Proof.
  unfold trace. rewrite run_app. cbn [snd]. rewrite nth_error_app2; rewrite run_length; [|lia]. rewrite Nat.sub_diag. cbn [run].
  destruct (exec P source _ o) as [s1 x]. destruct (run P source s1 h2) as [s2 l]. reflexivity.
Qed.
(** The result of an operation depends on its object and the next random bytes only. *)
Lemma exec_same P source source' s s' o o' :
  (forall n, urandom source s n = urandom source' s' n) ->
  on_first o = on_first o' -> (object_of o = None -> o = o') ->
  (forall i i', object_of o = Some i -> object_of o' = Some i' -> nth_error (objects s) i = nth_error (objects s') i') ->
  snd (exec P source s o) = snd (exec P source' s' o').
Proof.
  intros U E N O.
  destruct o as [c n|pw l q salt|i w p n|i c t seed n|i p c n d|i e p n d].
  - rewrite <- (N eq_refl). reflexivity.
  - rewrite <- (N eq_refl). cbn [exec]. destruct (truthy salt); [reflexivity|]. cbn [snd]. rewrite U. reflexivity.
  - idtac; destruct o' as [c' n'|pw' l' q' salt'|i' w' p' n'|i' c' t' seed' n'|i' p' c' n' d'|i' e' p' n' d']; cbn in E; try discriminate;
    specialize (O i i' eq_refl eq_refl); injection E as; subst; cbn [exec]; unfold with_object; rewrite O;
    destruct (nth_error _ i') as [[self|]|]; try reflexivity.
  - idtac; destruct o' as [c' n'|pw' l' q' salt'|i' w' p' n'|i' c' t' seed' n'|i' p' c' n' d'|i' e' p' n' d']; cbn in E; try discriminate;
    specialize (O i i' eq_refl eq_refl); injection E as; subst; cbn [exec]; unfold with_object; rewrite O;
    destruct (nth_error _ i') as [[self|]|]; try reflexivity.
    destruct (select_network self n'); [|reflexivity]. destruct (truthy seed'); [reflexivity|]. cbn [snd]. rewrite U. reflexivity.
  - idtac; destruct o' as [c' n'|pw' l' q' salt'|i' w' p' n'|i' c' t' seed' n'|i' p' c' n' d'|i' e' p' n' d']; cbn in E; try discriminate;
    specialize (O i i' eq_refl eq_refl); injection E as; subst; cbn [exec]; unfold with_object; rewrite O;
    destruct (nth_error _ i') as [[self|]|]; try reflexivity.
  - idtac; destruct o' as [c' n'|pw' l' q' salt'|i' w' p' n'|i' c' t' seed' n'|i' p' c' n' d'|i' e' p' n' d']; cbn in E; try discriminate;
    specialize (O i i' eq_refl eq_refl); injection E as; subst; cbn [exec]; unfold with_object; rewrite O;
    destruct (nth_error _ i') as [[self|]|]; try reflexivity.
Qed.
Lemma init_nth P source h i c n : nth_error (creations h) i = Some (c, n) ->
  nth_error (objects (fst (run P source initial h))) i = Some (bip38_init c n).
Proof. intros H. rewrite run_objects. cbn [objects initial app]. rewrite nth_error_map, H. reflexivity. Qed.

(** ** C65: calls do not influence each other *)
(** A call in any history does what it would do on a new object, made in the
    same way, in a process that had done nothing else. *)
Theorem C65_alone : forall P source h1 o h2 i c n, object_of o = Some i -> nth_error (creations h1) i = Some (c, n) ->
  exists d, nth_error (trace P source (h1 ++ o :: h2)) (List.length h1) =
            nth_error (trace P (fun k => source (d + k)%nat) [New c n; on_first o]) 1.
Proof.
  intros P source h1 o h2 i c n O C. exists (taken (fst (run P source initial h1))). rewrite trace_nth.
  rewrite (trace_nth P _ [New c n] (on_first o) []). f_equal. apply exec_same.
  - intros m. unfold urandom. cbn [run exec fst taken initial]. rewrite <- map_map. rewrite <- (map_map (fun k => (taken (fst (run P source initial h1)) + k)%nat) source).
    f_equal. generalize (taken (fst (run P source initial h1))). intros t. clear. 
    rewrite map_id. transitivity (List.map (fun k => (t + k)%nat) (seq 0 m)); [|reflexivity].
    rewrite <- (Nat.add_0_r t) at 1. generalize 0%nat. induction m as [|m IH]; intros z; [reflexivity|]. cbn [seq List.map]. f_equal. rewrite <- IH. f_equal. lia.
  - destruct o; reflexivity.
  - destruct o; cbn in O; discriminate.
  - intros j j' H H'. assert (j = i) by congruence. subst j. assert (j' = 0%nat) by (destruct o; cbn in *; congruence). subst j'.
    rewrite (init_nth _ _ _ _ _ _ C). reflexivity.
Qed.
Theorem C65_classmethod : forall P source h1 pw lot sequence salt h2,
  exists d, nth_error (trace P source (h1 ++ Intermediate pw lot sequence salt :: h2)) (List.length h1) =
            nth_error (trace P (fun k => source (d + k)%nat) [Intermediate pw lot sequence salt]) 0.
Proof.
  intros P source h1 pw lot sequence salt h2. exists (taken (fst (run P source initial h1))). rewrite trace_nth.
  rewrite (trace_nth P _ [] (Intermediate pw lot sequence salt) []). f_equal. apply exec_same; try reflexivity; [|discriminate].
  intros m. unfold urandom. cbn [run fst taken initial]. generalize (taken (fst (run P source initial h1))). intros t.
  rewrite <- (map_map (fun k => (t + k)%nat) source). f_equal. clear.
  rewrite <- (Nat.add_0_r t) at 1. generalize 0%nat. induction m as [|m IH]; intros z; [reflexivity|]. cbn [seq List.map]. f_equal. rewrite <- IH. f_equal. lia.
Qed.
(** Without random input it does the same in all histories. *)
Theorem C65_deterministic : forall P source source' h1 h1' o o' h2 h2' i i' c n, ~ wants_random o ->
  object_of o = Some i -> object_of o' = Some i' -> on_first o = on_first o' ->
  nth_error (creations h1) i = Some (c, n) -> nth_error (creations h1') i' = Some (c, n) ->
  exists r, nth_error (trace P source (h1 ++ o :: h2)) (List.length h1) = Some ([], r) /\
            nth_error (trace P source' (h1' ++ o' :: h2')) (List.length h1') = Some ([], r).
Proof.
  intros P source source' h1 h1' o o' h2 h2' i i' c n W O O' E C C'. rewrite !trace_nth.
  pose proof (init_nth P source h1 i c n C) as I. pose proof (init_nth P source' h1' i' c n C') as I'.
  destruct (bip38_init c n) as [self|e];
  destruct o as [k m|pw l q salt|j w p m|j code t seed m|j p code m d|j e0 p m d]; cbn in O; try discriminate;
  destruct o' as [k' m'|pw' l' q' salt'|j' w' p' m'|j' code' t' seed' m'|j' p' code' m' d'|j' e0' p' m' d']; cbn in O'; try discriminate;
    cbn in E; try discriminate; injection O as ->; injection O' as ->; injection E as; subst; cbn [exec]; unfold with_object; rewrite I, I'; try (eexists; split; reflexivity).
  destruct (select_network self m'); [|eexists; split; reflexivity]. cbn [wants_random] in W. rewrite <- truthy_false in W.
  destruct (truthy seed'); [eexists; split; reflexivity|congruence].
Qed.

(** ** C66: random bytes are used once, and in full *)
Lemma seq_map_split (source : nat -> byte) a n m : List.map source (seq a (n + m)) = List.map source (seq a n) ++ List.map source (seq (a + n) m).
Proof. rewrite seq_app, map_app. reflexivity. Qed.
Lemma exec_taken P source s o : fst (snd (exec P source s o)) = List.map source (seq (taken s) (taken (fst (exec P source s o)) - taken s)) /\
  (taken s <= taken (fst (exec P source s o)))%nat.
Proof.
  assert (Z : forall x : bytes * outcome, x = ([], snd x) -> fst (snd (s, x)) = List.map source (seq (taken s) (taken (fst (s, x)) - taken s)) /\ (taken s <= taken (fst (s, x)))%nat).
  { intros x ->. cbn [fst snd]. rewrite Nat.sub_diag. split; [reflexivity|lia]. }
  assert (T : forall k x, fst (snd (take s k, (urandom source s k, x : outcome))) = List.map source (seq (taken s) (taken (fst (take s k, (urandom source s k, x))) - taken s)) /\
     (taken s <= taken (fst (take s k, (urandom source s k, x))))%nat).
  { intros k x. cbn [fst snd take taken]. replace (taken s + k - taken s)%nat with k by lia. split; [reflexivity|lia]. }
  destruct o as [c n|pw l q salt|i w p n|i c t seed n|i p c n d|i e p n d]; cbn [exec].
  - cbn [fst snd taken]. rewrite Nat.sub_diag. split; [reflexivity|lia].
  - destruct (truthy salt); [apply Z; reflexivity|apply T].
  - unfold with_object. destruct (nth_error _ i) as [[|]|]; apply Z; reflexivity.
  - unfold with_object. destruct (nth_error _ i) as [[self|]|]; try (apply Z; reflexivity). destruct (select_network self n); [|apply Z; reflexivity].
    destruct (truthy seed); [apply Z; reflexivity|apply T].
  - unfold with_object. destruct (nth_error _ i) as [[|]|]; apply Z; reflexivity.
  - unfold with_object. destruct (nth_error _ i) as [[|]|]; apply Z; reflexivity.
Qed.
Lemma run_taken P source : forall h s, List.concat (List.map fst (snd (run P source s h))) = List.map source (seq (taken s) (taken (fst (run P source s h)) - taken s)) /\
  (taken s <= taken (fst (run P source s h)))%nat.
Proof.
  induction h as [|o h IH]; intros s; [cbn; rewrite Nat.sub_diag; split; [reflexivity|lia]|].
  cbn [run]. pose proof (exec_taken P source s o) as [E L]. destruct (exec P source s o) as [s1 x]. specialize (IH s1).
  destruct (run P source s1 h) as [s2 l]. cbn [fst snd List.map List.concat] in *. destruct IH as [I L']. split; [|lia].
  rewrite E, I. replace (taken s2 - taken s)%nat with ((taken s1 - taken s) + (taken s2 - taken s1))%nat by lia.
  rewrite seq_map_split. f_equal. f_equal. f_equal. lia.
Qed.
(** All that the operations of a history took, in order, is a prefix of the
    source: no byte is used twice and none is skipped. *)
Theorem C66_each_byte_once : forall P source h,
  let taken := List.concat (List.map fst (trace P source h)) in taken = List.map source (seq 0 (List.length taken)).
Proof.
  intros P source h. cbv zeta. unfold trace. destruct (run_taken P source h initial) as [E _]. cbn [taken initial] in E.
  rewrite E at 1. f_equal. f_equal. rewrite E, map_length, seq_length. reflexivity.
Qed.
(** An operation takes 8 or 24 bytes or none, and those are its salt or seed. *)
Theorem C66_used : forall P source h1 o h2 b r, nth_error (trace P source (h1 ++ o :: h2)) (List.length h1) = Some (b, r) ->
  match o with
  | Intermediate pw lot sequence salt =>
      wants_random o /\ List.length b = 8%nat /\ r = OIntermediate (intermediate_code P [] pw lot sequence (PBytes b)) \/
      ~ wants_random o /\ b = [] /\ forall x, r = OIntermediate (intermediate_code P x pw lot sequence salt)
  | Create i code t seed network =>
      wants_random o /\ List.length b = 24%nat /\ (exists c n self, nth_error (creations h1) i = Some (c, n) /\ bip38_init c n = Ok self /\
         r = OCreate (create_new_encrypted_wif P [] self code t (PBytes b) network)) \/
      b = []
  | _ => b = []
  end.
Proof.
  intros P source h1 o h2 b r. rewrite trace_nth. pose proof (run_objects P source h1 initial) as RO. cbn [objects initial app] in RO.
  set (s := fst (run P source initial h1)) in *. clearbody s.
  destruct o as [c n|pw l q salt|i w p n|i c t seed n|i p c n d|i e p n d]; cbn [exec wants_random].
  - intros H. injection H as; subst. reflexivity.
  - destruct (truthy salt) eqn:T; intros H; cbn [snd] in H; injection H as; subst b r.
    + right. split; [rewrite <- truthy_false; congruence|]. split; [reflexivity|]. intros x. unfold intermediate_code. rewrite T. reflexivity.
    + left. split; [apply truthy_false, T|]. split; [unfold urandom; rewrite map_length, seq_length; reflexivity|]. f_equal.
      unfold intermediate_code. rewrite T. reflexivity.
  - unfold with_object. destruct (nth_error _ i) as [[|]|]; intros H; cbn [snd] in H; injection H as; subst; reflexivity.
  - unfold with_object. destruct (nth_error (objects s) i) as [[self|]|] eqn:O; [|intros H; cbn [snd] in H; injection H as; subst; auto|intros H; cbn [snd] in H; injection H as; subst; auto].
    destruct (select_network self n) eqn:S; [|intros H; cbn [snd] in H; injection H as; subst; auto].
    destruct (truthy seed) eqn:T; intros H; cbn [snd] in H; injection H as; subst b r; [auto|].
    left. split; [apply truthy_false, T|]. split; [unfold urandom; rewrite map_length, seq_length; reflexivity|].
    rewrite RO, nth_error_map in O. destruct (nth_error (creations h1) i) as [[c0 n0]|]; [|discriminate O]. cbn in O.
    exists c0, n0, self. split; [reflexivity|]. split; [congruence|]. f_equal.
    unfold create_new_encrypted_wif. rewrite T. reflexivity.
  - unfold with_object. destruct (nth_error _ i) as [[|]|]; intros H; cbn [snd] in H; injection H as; subst; reflexivity.
  - unfold with_object. destruct (nth_error _ i) as [[|]|]; intros H; cbn [snd] in H; injection H as; subst; reflexivity.
Qed.
(** If two unsalted intermediate codes, or two unseeded new keys of one code, of
    a history coincide, then the random bytes taken for them coincide. *)
Theorem C66_codes_repeat : forall P source h j k b b' pw pw' salt salt' code, prims_ok P ->
  nth_error h j = Some (Intermediate pw None None salt) -> nth_error h k = Some (Intermediate pw' None None salt') ->
  wants_random (Intermediate pw None None salt) -> wants_random (Intermediate pw' None None salt') ->
  nth_error (trace P source h) j = Some (b, OIntermediate (Ok code)) -> nth_error (trace P source h) k = Some (b', OIntermediate (Ok code)) -> b = b'.
Proof.
  intros P source h j k b b' pw pw' salt salt' code HP J K W W' T T'.
  destruct (nth_error_split h j J) as (h1 & h2 & E & <-). rewrite E in T.
  destruct (nth_error_split h k K) as (h3 & h4 & E' & <-). rewrite E' in T'.
  apply C66_used in T, T'. destruct T as [(_ & L & R)|(N & _)]; [|contradiction]. destruct T' as [(_ & L' & R')|(N & _)]; [|contradiction].
  assert (X : intermediate_code P [] pw None None (PBytes b) = Ok code) by congruence.
  assert (X' : intermediate_code P [] pw' None None (PBytes b') = Ok code) by congruence.
  apply (C55_plain_injective P [] [] (PBytes b) (PBytes b') b b' pw pw' code HP); trivial; right; left; split; trivial; intros ->; discriminate.
Qed.
Theorem C66_new_keys_repeat : forall P source h j k b b' i i' code t t' seed seed' network network' c c' n n' r r', prims_ok P ->
  nth_error h j = Some (Create i code t seed network) -> nth_error h k = Some (Create i' code t' seed' network') ->
  wants_random (Create i code t seed network) -> wants_random (Create i' code t' seed' network') ->
  nth_error (creations (firstn j h)) i = Some (CoinClass c, n) -> nth_error (creations (firstn k h)) i' = Some (CoinClass c', n') -> coin_ok c -> coin_ok c' ->
  nth_error (trace P source h) j = Some (b, OCreate (Ok r)) -> nth_error (trace P source h) k = Some (b', OCreate (Ok r')) ->
  n_encrypted_wif r = n_encrypted_wif r' -> b = b' /\ t = t'.
Proof.
  intros P source h j k b b' i i' code t t' seed seed' network network' c c' n n' r r' HP J K W W' C C' HC HC' T T' Q.
  assert (A : forall j i b c n t seed network r, coin_ok c -> nth_error h j = Some (Create i code t seed network) -> wants_random (Create i code t seed network) ->
     nth_error (creations (firstn j h)) i = Some (CoinClass c, n) -> nth_error (trace P source h) j = Some (b, OCreate (Ok r)) ->
     exists self w a, session self network w a /\ List.length b = 24%nat /\ create_new_encrypted_wif P [] self code t (PBytes b) network = Ok r).
  { clear. intros j i b c n t seed network r HC J W C T. destruct (nth_error_split h j J) as (h1 & h2 & E & <-).
    rewrite E in C, T. rewrite firstn_app, Nat.sub_diag, firstn_all in C. cbn [firstn] in C. rewrite app_nil_r in C.
    rewrite trace_nth in T. cbn [exec] in T. unfold with_object in T. rewrite (init_nth _ _ _ _ _ _ C) in T.
    destruct (bip38_init (CoinClass c) n) as [self|e] eqn:I; [|discriminate T].
    apply truthy_false in W. destruct (dict_get (chosen network n) (c_networks c)) as [[w a]|] eqn:D.
    - assert (HS : session self network w a) by (exists c, n; auto). destruct (session_net_sel _ _ _ _ HS) as (n' & N).
      rewrite (ns_sel _ _ _ _ _ N), W in T. cbn [snd] in T. assert (b = urandom source (fst (run P source initial h1)) 24) by congruence. subst b.
      exists self, w, a. assert (X : create_new_encrypted_wif P (urandom source (fst (run P source initial h1)) 24) self code t seed network = Ok r) by congruence.
      split; [exact HS|]. split; [unfold urandom; rewrite map_length, seq_length; reflexivity|].
      rewrite <- X. unfold create_new_encrypted_wif. rewrite W. reflexivity.
    - exfalso. destruct (init_inv _ _ _ I) as (Ec & En & E0 & IN). apply dict_get_none in D.
      assert (S : select_network self network = Raise (network_error (s_networks self))).
      { apply (select_error self network n E0); rewrite En; [|exact D]. intros X. rewrite X in IN. destruct IN. }
      rewrite S in T. rewrite (create_no_net _ _ _ _ _ _ _ _ S) in T. discriminate T. }
  destruct (A j i b c n t seed network r HC J W C T) as (self & w & a & S & L & E).
  destruct (A k i' b' c' n' t' seed' network' r' HC' K W' C' T') as (self' & w' & a' & S' & L' & E').
  apply (C54_seed_injective P [] [] self self' network network' w a w' a' code t t' (PBytes b) (PBytes b') b b' r r' HP S S'); trivial;
    right; left; split; trivial; intros ->; discriminate.
Qed.
