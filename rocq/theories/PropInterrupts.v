(** * C81: interrupted calls leave no trace. *)
From Coq Require Import Lia.
From Verif Require Import Py Prims Const Spec PyFacts Cryptocurrencies Bip38 History Interrupts CodecFacts2 Sessions PropHistory Toy.

(** The history without the interrupted calls, and what the others got *)
Fixpoint whole (h : list iop) : list op :=
  match h with [] => [] | Whole o :: r => o :: whole r | Cut _ _ :: r => whole r end.
Fixpoint seen (l : list (bytes * option outcome)) : list (bytes * outcome) :=
  match l with [] => [] | (b, Some x) :: r => (b, x) :: seen r | (_, None) :: r => seen r end.

Lemma irun_cons P source s o h : irun P source s (o :: h) =
  (fst (irun P source (fst (iexec P source s o)) h), snd (iexec P source s o) :: snd (irun P source (fst (iexec P source s o)) h)).
Proof. cbn [irun]. destruct (iexec P source s o) as [s1 x]. cbn [fst snd]. destruct (irun P source s1 h); reflexivity. Qed.
Lemma run_cons P source s o h : run P source s (o :: h) =
  (fst (run P source (fst (exec P source s o)) h), snd (exec P source s o) :: snd (run P source (fst (exec P source s o)) h)).
Proof. cbn [run]. destruct (exec P source s o) as [s1 x]. cbn [fst snd]. destruct (run P source s1 h); reflexivity. Qed.

(** A call on a state with the same objects that gets the same bytes *)
Lemma exec_moved P source source' s s' o : objects s = objects s' ->
  (forall j, (j < taken (fst (exec P source s o)) - taken s)%nat -> source (taken s + j)%nat = source' (taken s' + j)%nat) ->
  snd (exec P source s o) = snd (exec P source' s' o) /\
  objects (fst (exec P source s o)) = objects (fst (exec P source' s' o)) /\
  (taken (fst (exec P source' s' o)) = taken s' + (taken (fst (exec P source s o)) - taken s))%nat.
Proof.
  intros E H.
  assert (U : forall n, (n <= taken (fst (exec P source s o)) - taken s)%nat -> urandom source s n = urandom source' s' n).
  { intros n L. unfold urandom. assert (M : forall m a b, (forall j, (j < m)%nat -> source (a + j)%nat = source' (b + j)%nat) -> List.map source (seq a m) = List.map source' (seq b m)).
    { clear. induction m as [|m IH]; intros a b H; [reflexivity|]. cbn [seq List.map]. f_equal.
      - specialize (H 0%nat). rewrite !Nat.add_0_r in H. apply H. lia.
      - apply IH. intros j J. specialize (H (S j)). rewrite !Nat.add_succ_r in H. rewrite !Nat.add_succ_l. apply H. lia. }
    apply M. intros j J. apply H. lia. }
  destruct o as [c n|pw l q salt|i w p n|i c t seed n|i p c n d|i e p n d]; cbn [exec] in *; unfold with_object in *; try rewrite <- E in *.
  - cbn [fst snd objects taken] in *. rewrite ?E. repeat split; lia.
  - destruct (truthy salt); cbn [fst snd objects taken take] in *; [repeat split; trivial; lia|].
    rewrite <- (U 8%nat) by lia. repeat split; trivial; lia.
  - destruct (nth_error (objects s) i) as [[self|]|]; cbn [fst snd]; repeat split; trivial; lia.
  - destruct (nth_error (objects s) i) as [[self|]|]; cbn [fst snd] in *; try (repeat split; trivial; lia).
    destruct (select_network self n); [|cbn [fst snd]; repeat split; trivial; lia]. destruct (truthy seed); cbn [fst snd objects taken take] in *; [repeat split; trivial; lia|].
    rewrite <- (U 24%nat) by lia. repeat split; trivial; lia.
  - destruct (nth_error (objects s) i) as [[self|]|]; cbn [fst snd]; repeat split; trivial; lia.
  - destruct (nth_error (objects s) i) as [[self|]|]; cbn [fst snd]; repeat split; trivial; lia.
Qed.
Lemma erase_run P source : forall h s s' g, objects s = objects s' ->
  exists source', (forall j, (j < taken s')%nat -> source' j = g j) /\ seen (snd (irun P source s h)) = snd (run P source' s' (whole h)).
Proof.
  induction h as [|[o|o late] h IH]; intros s s' g E.
  - exists g. split; reflexivity.
  - rewrite irun_cons. cbn [whole snd]. set (n := (taken (fst (exec P source s o)) - taken s)%nat).
    set (g' := fun j => if Nat.ltb j (taken s') then g j else source (taken s + (j - taken s'))%nat).
    assert (I : fst (iexec P source s (Whole o)) = fst (exec P source s o)) by (cbn [iexec]; destruct (exec P source s o); reflexivity).
    assert (X : snd (iexec P source s (Whole o)) = (fst (snd (exec P source s o)), Some (snd (snd (exec P source s o))))) by (cbn [iexec]; destruct (exec P source s o); reflexivity).
    rewrite I, X. cbn [seen].
    destruct (exec_moved P source g' s s' o E) as (M1 & M2 & M3).
    { intros j J. unfold g'. destruct (Nat.ltb_spec (taken s' + j) (taken s')); [lia|]. f_equal. lia. }
    destruct (IH (fst (exec P source s o)) (fst (exec P g' s' o)) g' M2) as (source' & A & B).
    exists source'. split.
    + intros j J. rewrite A by (rewrite M3; lia). unfold g'. destruct (Nat.ltb_spec j (taken s')); [reflexivity|lia].
    + assert (N : fst (exec P source' s' o) = fst (exec P g' s' o) /\ snd (exec P g' s' o) = snd (exec P source' s' o)).
      { destruct (exec_moved P g' source' s' s' o eq_refl) as (N1 & N2 & N3).
        - intros j J. symmetry. apply A. lia.
        - split; [|exact N1]. destruct (fst (exec P source' s' o)) as [ob' t'], (fst (exec P g' s' o)) as [ob t] eqn:T. cbn [objects taken] in *. rewrite N2. f_equal.
          destruct (exec_taken P g' s' o) as [_ LE]. rewrite T in LE. cbn [taken] in LE. lia. }
      destruct N as [N1 N2]. rewrite run_cons. cbn [snd]. rewrite N1, <- N2, <- M1, <- B. destruct (snd (exec P source s o)); reflexivity.
  - rewrite irun_cons. cbn [whole snd].
    assert (O : objects (fst (iexec P source s (Cut o late))) = objects s') by (cbn [iexec]; destruct (exec P source s o), late; exact E).
    assert (X : exists b, snd (iexec P source s (Cut o late)) = (b, None)) by (cbn [iexec]; destruct (exec P source s o), late; eexists; reflexivity).
    destruct X as [b ->]. cbn [seen]. apply IH, O.
Qed.

(** ** C81 *)
(** The calls that end by themselves get what they would get in a process
    without the interrupted ones, up to the random bytes they draw. *)
Theorem C81_no_trace : forall P source h, exists source',
  seen (itrace P source h) = trace P source' (whole h).
Proof. intros P source h. destruct (erase_run P source h initial initial source eq_refl) as (s' & _ & H). exists s'. exact H. Qed.
(** A call that takes no random bytes gets exactly what it gets alone, on an
    object made with the same arguments. *)
Theorem C81_deterministic : forall P source h1 o h2 i c n, ~ wants_random o -> object_of o = Some i ->
  nth_error (creations (whole h1)) i = Some (c, n) ->
  exists r, nth_error (itrace P source (h1 ++ Whole o :: h2)) (List.length h1) = Some ([], Some r) /\
    forall source', nth_error (trace P source' [New c n; on_first o]) 1 = Some ([], r).
Proof.
  intros P source h1 o h2 i c n W O C.
  assert (A : forall h1 s, nth_error (snd (irun P source s (h1 ++ Whole o :: h2))) (List.length h1) = Some (snd (iexec P source (fst (irun P source s h1)) (Whole o)))).
  { clear. induction h1 as [|x h1 IH]; intros s; cbn [app List.length]; rewrite irun_cons; cbn [snd nth_error]; [reflexivity|].
    rewrite IH. rewrite (irun_cons P source s x h1). reflexivity. }
  unfold itrace. rewrite A. set (s := fst (irun P source initial h1)).
  assert (OB : forall h s, objects (fst (irun P source s h)) = objects s ++ List.map (fun x => bip38_init (fst x) (snd x)) (creations (whole h))).
  { clear. induction h as [|[o|o late] h IH]; intros s; [cbn; rewrite app_nil_r; reflexivity| |]; rewrite irun_cons; cbn [fst whole]; rewrite IH.
    - change (creations (o :: whole h)) with (creations ([o] ++ whole h)). unfold creations at 2. rewrite flat_map_app, map_app. fold (creations [o]). fold (creations (whole h)).
      rewrite app_assoc, <- (exec_objects P source). cbn [iexec]. destruct (exec P source s o); reflexivity.
    - f_equal. cbn [iexec]. destruct (exec P source s o), late; reflexivity. }
  assert (NI : nth_error (objects s) i = Some (bip38_init c n)) by (unfold s; rewrite OB; cbn [objects initial app]; rewrite nth_error_map, C; reflexivity).
  assert (X : snd (iexec P source s (Whole o)) = (fst (snd (exec P source s o)), Some (snd (snd (exec P source s o))))) by (cbn [iexec]; destruct (exec P source s o); reflexivity).
  rewrite X. exists (snd (snd (exec P source s o))).
  assert (T : forall source', nth_error (trace P source' [New c n; on_first o]) 1 = Some (snd (exec P source' {| objects := [bip38_init c n]; taken := 0 |} (on_first o)))).
  { intros source'. transitivity (Some (snd (exec P source' (fst (run P source' initial [New c n])) (on_first o)))); [exact (trace_nth P source' [New c n] (on_first o) [])|reflexivity]. }
  assert (B : forall source', snd (exec P source' {| objects := [bip38_init c n]; taken := 0 |} (on_first o)) = ([], snd (snd (exec P source s o))) /\ fst (snd (exec P source s o)) = []).
  { intros source'. destruct o as [c' n'|pw l q salt|j w p n'|j c' t seed n'|j p c' n' d|j e p n' d]; cbn in O; try discriminate; assert (j = i) by congruence; subst j;
      cbn [exec on_first]; unfold with_object; cbn [objects nth_error]; rewrite NI; destruct (bip38_init c n) as [self|]; cbn [fst snd]; try (split; reflexivity).
    destruct (select_network self n'); [|split; reflexivity]. cbn [wants_random] in W. rewrite <- truthy_false in W. destruct (truthy seed); [split; reflexivity|congruence]. }
  split; [rewrite (proj2 (B source)); reflexivity|]. intros source'. rewrite T, (proj1 (B source')). reflexivity.
Qed.
(** No random byte is handed out twice: what an interrupted call has taken is
    lost, and a call made in its place draws new bytes. *)
Theorem C81_each_byte_once : forall P source h,
  let taken := List.concat (List.map fst (itrace P source h)) in taken = List.map source (seq 0 (List.length taken)).
Proof.
  intros P source h. cbv zeta. unfold itrace.
  assert (A : forall h s, List.concat (List.map fst (snd (irun P source s h))) = List.map source (seq (taken s) (taken (fst (irun P source s h)) - taken s)) /\
    (taken s <= taken (fst (irun P source s h)))%nat).
  { clear. induction h as [|o h IH]; intros s; [cbn; rewrite Nat.sub_diag; split; [reflexivity|lia]|].
    rewrite irun_cons. cbn [fst snd List.map List.concat]. specialize (IH (fst (iexec P source s o))).
    assert (S : fst (snd (iexec P source s o)) = List.map source (seq (taken s) (taken (fst (iexec P source s o)) - taken s)) /\ (taken s <= taken (fst (iexec P source s o)))%nat).
    { destruct o as [o|o late]; cbn [iexec]; pose proof (exec_taken P source s o) as [E L]; destruct (exec P source s o) as [s1 x]; [exact (conj E L)|].
      destruct late; [exact (conj E L)|]. cbn [fst snd]. rewrite Nat.sub_diag. split; [reflexivity|lia]. }
    destruct S as [E L], IH as [I L']. split; [|lia]. set (s1 := fst (iexec P source s o)) in *. set (s2 := fst (irun P source s1 h)) in *.
    rewrite E, I. replace (taken s2 - taken s)%nat with ((taken s1 - taken s) + (taken s2 - taken s1))%nat by lia.
    rewrite seq_map_split. do 3 f_equal. lia. }
  destruct (A h initial) as [E _]. cbn [taken initial] in E. rewrite E at 1. f_equal. f_equal. rewrite E, map_length, seq_length. reflexivity.
Qed.
(** An interrupted call takes the bytes it asks for, or none. *)
Theorem C81_taken : forall P source h1 o late h2 b x, nth_error (itrace P source (h1 ++ Cut o late :: h2)) (List.length h1) = Some (b, x) ->
  x = None /\ (b <> [] -> late = true /\ wants_random o /\ List.length b = match o with Intermediate _ _ _ _ => 8 | _ => 24 end%nat).
Proof.
  intros P source h1 o late h2 b x H.
  assert (A : forall h1 s, nth_error (snd (irun P source s (h1 ++ Cut o late :: h2))) (List.length h1) = Some (snd (iexec P source (fst (irun P source s h1)) (Cut o late)))).
  { clear. induction h1 as [|y h1 IH]; intros s; cbn [app List.length]; rewrite irun_cons; cbn [snd nth_error]; [reflexivity|].
    rewrite IH. rewrite (irun_cons P source s y h1). reflexivity. }
  unfold itrace in H. rewrite A in H. set (s := fst (irun P source initial h1)) in *.
  assert (L : late = false -> b = [] /\ x = None).
  { intros ->. cbn [iexec] in H. destruct (exec P source s o). cbn [snd] in H. split; congruence. }
  destruct late; [clear L|destruct (L eq_refl) as [-> ->]; split; [reflexivity|congruence]].
  assert (X : snd (iexec P source s (Cut o true)) = (fst (snd (exec P source s o)), None)) by (cbn [iexec]; destruct (exec P source s o); reflexivity).
  rewrite X in H. assert (x = None) by congruence. assert (B : b = fst (snd (exec P source s o))) by congruence. split; [assumption|]. clear H X A. intros N. split; [reflexivity|].
  destruct o as [c n|pw l q salt|i w p n|i c t seed n|i p c n d|i e p n d]; cbn [exec] in B; unfold with_object in B; try (destruct (nth_error (objects s) i) as [[self|]|]); cbn [fst snd] in B; try congruence.
  - cbn [wants_random]. rewrite <- truthy_false. destruct (truthy salt); cbn [fst snd] in B; [congruence|]. split; [reflexivity|]. subst b. unfold urandom. rewrite map_length, seq_length. reflexivity.
  - cbn [wants_random]. rewrite <- truthy_false. destruct (select_network self n); cbn [fst snd] in B; [|congruence]. destruct (truthy seed); cbn [fst snd] in B; [congruence|]. split; [reflexivity|]. subst b. unfold urandom. rewrite map_length, seq_length. reflexivity.
Qed.

(** ** The hypotheses are met *)
(** An interrupted intermediate_code that had drawn its salt, an interrupted
    constructor, and a decryption *)
Definition interrupted_history : list iop :=
  [Cut (Intermediate (str "pw") None None PNone) true; Cut (New (CoinClass coin_Bitcoin) (str "mainnet")) true;
   Whole (New (CoinClass coin_Bitcoin) (str "testnet")); Whole (Decrypt 0 (str "6P") (str "pw") None false)].
Example C81_met : forall source, creations (whole (firstn 3 interrupted_history)) = [(CoinClass coin_Bitcoin, str "testnet")] /\
  ~ wants_random (Decrypt 0 (str "6P") (str "pw") None false) /\
  List.map fst (itrace toy source interrupted_history) = [List.map source (seq 0 8); []; []; []].
Proof. intros source. split; [reflexivity|]. split; [intros []|]. vm_compute. reflexivity. Qed.
