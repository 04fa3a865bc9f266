(** * C99: objects that are copied, sent to other processes, or forked
    (bip38.py:79-88). *)
From Coq Require Import Lia.
From Verif Require Import Py Prims Const Spec PyFacts Exceptions ErrorFacts Utils UtilsFacts Base58 SpecBip38 SpecRecords SpecSession Cryptocurrencies P2PKHAddress Wif Bip38 History Worlds
  CodecFacts2 Bip38Facts Bip38Facts2 Sessions RecordFacts ECFacts Toy PropIntermediate PropCreate PropEncrypt PropDecrypt PropSession PropUnique PropHistory PropWorlds Inherit PropInherit Copies.

(** ** What is claimed *)
(** The system after the operations [h] *)
Definition after (P : prims) (source : nat -> byte) (cs : nat -> nat -> coin) (h : list sop) : system := fst (srun P source (boot cs) h).
(** What process [p] reads of its [i]-th object, and in the table of its class [k] *)
Definition reads (S : system) (p i : nat) : option (res object) := nth_error (objs (sees S p)) i.
Definition table_of (S : system) (p k : nat) : list (pystr * (Z * Z)) := c_networks (s_classes (sites S p) k).
(** How many objects process [p] has *)
Definition count (S : system) (p : nat) : nat := List.length (objs (sees S p)).
(** Process [q] gets the object [ob] in addition; nothing else changes. *)
Definition gains (S S' : system) (q : nat) (ob : object) : Prop :=
  objs (sees S' q) = objs (sees S q) ++ [Ok ob] /\ (forall k, s_classes (sites S' q) k = s_classes (sites S q) k) /\
  (forall r, r <> q -> sees S' r = sees S r).
(** An operation of another process that sends process [q] nothing *)
Definition elsewhere (q : nat) (o : sop) : Prop :=
  match o with
  | Do p _ | Share p _ _ | Edit p _ _ | Copy p _ => p <> q
  | Send _ _ r | Fork _ r => r <> q
  end.
(** An operation that does not name object [j] of process [q]; what other
    processes do is not restricted, but no process is made [q]. *)
Definition spares (q j : nat) (o : sop) : Prop :=
  match o with
  | Do p (SetNetwork i _) | Do p (SetNetworks i _) | Do p (SetCoin i _) => p <> q \/ i <> j
  | Do _ _ => True
  | Share p i i' => p <> q \/ (i <> j /\ i' <> j)
  | Edit p i _ | Copy p i => p <> q \/ i <> j
  | Send _ _ _ => True
  | Fork _ r => r <> q
  end.
(** An operation that does not give object [i] of process [q] another list *)
Definition keeps_list (q i : nat) (o : sop) : Prop :=
  match o with
  | Do p (SetNetworks j _) | Share p j _ => p <> q \/ j <> i
  | Fork _ r => r <> q
  | _ => True
  end.

(** ** Proofs *)
Definition wf_site (s : site) : Prop := forall i h, nth_error (s_objects s) i = Some (Ok h) -> (l_names h < List.length (s_lists s))%nat.
Definition wf (S : system) : Prop := forall p, wf_site (sites S p).
Lemma open_more s l os h : (forall i, h = Ok i -> (l_names i < List.length (s_lists s))%nat) -> open (with_objects s (s_lists s ++ l) os) h = open s h.
Proof. destruct h as [h|e]; [|reflexivity]. intros H. cbn [open with_objects s_lists]. rewrite app_nth1 by (apply H; reflexivity). reflexivity. Qed.
Lemma map_open_more s l os os' : wf_site s -> (forall h, In (Ok h) os -> In (Ok h) (s_objects s)) ->
  List.map (open (with_objects s (s_lists s ++ l) os')) os = List.map (open s) os.
Proof.
  intros W H. apply map_ext_in. intros h I. apply open_more. intros i ->. apply H in I. apply In_nth_error in I. destruct I as [n E]. exact (W _ _ E).
Qed.
Lemma set_nth_error {A} (v : A) : forall l i j, nth_error (set_nth i v l) j = if Nat.eqb i j then match nth_error l i with Some _ => Some v | None => None end else nth_error l j.
Proof.
  induction l as [|x l IH]; intros i j; [destruct i, j; try reflexivity; cbn [set_nth nth_error]; destruct (Nat.eqb _ _); reflexivity|].
  destruct i as [|i], j as [|j]; cbn [set_nth nth_error Nat.eqb]; try reflexivity. apply IH.
Qed.
Lemma nth_error_map_open s os i : nth_error (List.map (open s) os) i = match nth_error os i with Some h => Some (open s h) | None => None end.
Proof. rewrite nth_error_map. destruct (nth_error os i); reflexivity. Qed.
Section Steps.
Variable P : prims.
Variable source : nat -> byte.
Lemma do_fst S p o : fst (sexec P source S (Do p o)) =
  let W := fst (wexec P source (sees S p) o) in let s := store (sites S p) o W in
  {| sites := fun q => if Nat.eqb q p then {| s_classes := classes W; s_lists := s_lists s; s_objects := s_objects s |} else sites S q; drawn := used W |}.
Proof. cbn [sexec]. destruct (wexec P source (sees S p) o). reflexivity. Qed.
Lemma do_snd S p o : snd (sexec P source S (Do p o)) = snd (wexec P source (sees S p) o).
Proof. cbn [sexec]. destruct (wexec P source (sees S p) o). reflexivity. Qed.
(** The objects after an operation of Worlds.v that is none of Make, SetNetwork, SetNetworks, SetCoin *)
Definition plain (o : wop) : Prop := match o with Make _ _ | SetNetwork _ _ | SetNetworks _ _ | SetCoin _ _ => False | _ => True end.
Lemma plain_objs W o : plain o -> objs (fst (wexec P source W o)) = objs W.
Proof.
  destruct o; cbn [plain wexec]; try tauto; intros _; try reflexivity.
  - destruct (exec P source (snapshot W) o). reflexivity.
  - unfold at_item. destruct (dict_get _ _); reflexivity.
  - unfold at_item. destruct (dict_get _ _); reflexivity.
  - unfold at_item. destruct (dict_get _ _); reflexivity.
Qed.
Lemma plain_store s o W : plain o -> store s o W = s.
Proof. destruct o; cbn [plain store]; tauto. Qed.
Definition renamed (s : site) (f : held -> held) (g : object -> object) : Prop :=
  forall h, In (Ok h) (s_objects s) -> open s (Ok (f h)) = match open s (Ok h) with Ok o => Ok (g o) | Raise e => Raise e end.
Lemma on_held_open s s' i f g : (forall h, In h (s_objects s) -> open s' h = open s h) ->
  (forall h, nth_error (s_objects s) i = Some (Ok h) -> open s' (Ok (f h)) = match open s (Ok h) with Ok o => Ok (g o) | Raise e => Raise e end) ->
  List.map (open s') (on_held s i f) = objs (fst (set_object {| classes := s_classes s; objs := List.map (open s) (s_objects s); used := 0 |} i g)).
Proof.
  intros H HF. unfold on_held, set_object. cbn [objs classes used]. rewrite nth_error_map_open. destruct (nth_error (s_objects s) i) as [[h|e]|] eqn:E.
  - specialize (HF h eq_refl). cbn [open fst objs] in *. rewrite <- (map_ext_in _ _ _ H), <- HF.
    change (List.map (open s') (set_nth i (Ok (f h)) (s_objects s)) = set_nth i (open s' (Ok (f h))) (List.map (open s') (s_objects s))). rewrite set_nth_map. reflexivity.
  - cbn [open fst objs]. apply map_ext_in. exact H.
  - cbn [fst objs]. apply map_ext_in. exact H.
Qed.
Lemma set_object_objs W i g : objs (fst (set_object W i g)) = objs (fst (set_object {| classes := classes W; objs := objs W; used := 0 |} i g)).
Proof. unfold set_object. cbn [objs classes used]. destruct (nth_error (objs W) i) as [[|]|]; reflexivity. Qed.
Lemma store_objs S p o : wf_site (sites S p) -> let W := fst (wexec P source (sees S p) o) in
  List.map (open (store (sites S p) o W)) (s_objects (store (sites S p) o W)) = objs W.
Proof.
  intros HW W. set (s := sites S p) in *.
  assert (H0 : forall l os, (forall h, In h (s_objects s) -> open (with_objects s (s_lists s ++ l) os) h = open s h)).
  { intros l os h I. apply open_more. intros i ->. apply In_nth_error in I. destruct I as [n E]. exact (HW _ _ E). }
  assert (H1 : forall os, (forall h, open (with_objects s (s_lists s) os) h = open s h)) by (intros os [h|e]; reflexivity).
  destruct o; try (rewrite plain_store by exact I; subst W; rewrite plain_objs by exact I; reflexivity).
  - (* Make *)
    subst W. cbn [wexec fst objs]. cbn [store objs sees]. fold s. rewrite nth_error_app2 by (rewrite map_length; lia). rewrite map_length, Nat.sub_diag. cbn [nth_error].
    destruct (bip38_init _ _) as [self|e]; cbn [s_objects with_objects]; rewrite map_app; cbn [List.map].
    + rewrite (map_ext_in _ (open s)) by (intros h I; apply (H0 [s_networks self] _ h I)). f_equal. cbn [open with_objects s_lists hold l_names l_class l_network l_alphabet o_class o_networks o_network o_alphabet].
      rewrite app_nth2, Nat.sub_diag by lia. reflexivity.
    + f_equal.
  - (* SetNetwork *)
    subst W. cbn [wexec]. rewrite set_object_objs. cbn [store s_objects with_objects]. fold s. apply on_held_open.
    + intros h _. apply H1.
    + intros h _. reflexivity.
  - (* SetNetworks *)
    subst W. cbn [wexec]. rewrite set_object_objs. cbn [store s_objects with_objects]. fold s. apply on_held_open.
    + intros h I. apply H0, I.
    + intros h _. cbn [open with_objects s_lists l_names l_class l_network l_alphabet o_class o_networks o_network o_alphabet]. rewrite app_nth2, Nat.sub_diag by lia. reflexivity.
  - (* SetCoin *)
    subst W. cbn [wexec]. rewrite set_object_objs. cbn [store s_objects with_objects]. fold s. apply on_held_open.
    + intros h _. apply H1.
    + intros h _. reflexivity.
Qed.
Lemma do_sees S p o : wf_site (sites S p) -> sees (fst (sexec P source S (Do p o))) p = fst (wexec P source (sees S p) o).
Proof.
  intros HW. rewrite do_fst. cbv zeta. unfold sees at 1. cbn [sites drawn]. rewrite Nat.eqb_refl. cbn [s_classes s_objects].
  pose proof (store_objs S p o HW) as E. cbv zeta in E. set (W := fst (wexec P source (sees S p) o)) in *.
  assert (E' : objs W = List.map (open {| s_classes := classes W; s_lists := s_lists (store (sites S p) o W); s_objects := s_objects (store (sites S p) o W) |}) (s_objects (store (sites S p) o W)))
    by (rewrite <- E; apply map_ext; intros [h|e]; reflexivity).
  rewrite <- E'. destruct W; reflexivity.
Qed.
Lemma on_held_in s i f j h : nth_error (on_held s i f) j = Some (Ok h) ->
  nth_error (s_objects s) j = Some (Ok h) \/ (i = j /\ exists h0, nth_error (s_objects s) i = Some (Ok h0) /\ h = f h0).
Proof.
  unfold on_held. destruct (nth_error (s_objects s) i) as [[h0|e]|] eqn:E; auto. rewrite set_nth_error, E.
  destruct (Nat.eqb i j) eqn:Q; [|auto]. apply Nat.eqb_eq in Q. intros [= <-]. right. eauto.
Qed.
Lemma wf_step S o : wf S -> wf (fst (sexec P source S o)).
Proof.
  intros W p i h. destruct o as [q o|q a b|q a l|q a|q a r|q r].
  - rewrite do_fst. cbn [sites]. destruct (Nat.eqb p q) eqn:Q; [|apply W]. apply Nat.eqb_eq in Q. subst q. cbn [s_objects s_lists].
    set (V := fst (wexec P source (sees S p) o)). clearbody V. specialize (W p). set (s := sites S p) in *. clearbody s. intros H. destruct o; try exact (W _ _ H); cbn [store] in *.
    + destruct (nth_error (objs V) _) as [[ob|e]|]; [| |exact (W _ _ H)]; cbn [with_objects s_objects s_lists] in *.
      * rewrite app_length. cbn [List.length]. destruct (Nat.lt_ge_cases i (List.length (s_objects s))) as [L|L].
        -- rewrite nth_error_app1 in H by exact L. specialize (W _ _ H). lia.
        -- rewrite nth_error_app2 in H by exact L. destruct (i - _)%nat as [|[|]]; cbn in H; try discriminate. injection H as <-. cbn. lia.
      * destruct (Nat.lt_ge_cases i (List.length (s_objects s))) as [L|L].
        -- rewrite nth_error_app1 in H by exact L. exact (W _ _ H).
        -- rewrite nth_error_app2 in H by exact L. destruct (i - _)%nat as [|[|]]; cbn in H; discriminate.
    + cbn [with_objects s_objects s_lists] in *. apply on_held_in in H. destruct H as [H|(-> & h0 & H & ->)]; specialize (W _ _ H); exact W.
    + cbn [with_objects s_objects s_lists] in *. rewrite app_length. cbn [List.length]. apply on_held_in in H. destruct H as [H|(-> & h0 & H & ->)]; [specialize (W _ _ H); lia|]. cbn [l_names]. lia.
    + cbn [with_objects s_objects s_lists] in *. apply on_held_in in H. destruct H as [H|(-> & h0 & H & ->)]; specialize (W _ _ H); exact W.
  - cbn [sexec]. destruct (nth_error _ a) as [[ha|]|] eqn:Ea; try apply W. destruct (nth_error _ b) as [[hb|]|] eqn:Eb; try apply W.
    cbn [fine fst set_site sites]. destruct (Nat.eqb p q) eqn:Q; [|apply W]. apply Nat.eqb_eq in Q. subst q. cbn [with_objects s_objects s_lists].
    intros H. apply on_held_in in H. destruct H as [H|(-> & h0 & H & ->)]; [exact (W _ _ _ H)|exact (W _ _ _ Eb)].
  - cbn [sexec]. destruct (nth_error _ a) as [[ha|]|] eqn:Ea; try apply W. cbn [fine fst set_site sites]. destruct (Nat.eqb p q) eqn:Q; [|apply W].
    apply Nat.eqb_eq in Q. subst q. cbn [with_objects s_objects s_lists]. rewrite set_nth_length. apply W.
  - cbn [sexec]. destruct (nth_error _ a) as [[ha|]|] eqn:Ea; try apply W. cbn [fine fst set_site sites]. destruct (Nat.eqb p q) eqn:Q; [|apply W].
    apply Nat.eqb_eq in Q. subst q. cbn [with_objects s_objects s_lists]. intros H. destruct (Nat.lt_ge_cases i (List.length (s_objects (sites S p)))) as [L|L].
    + rewrite nth_error_app1 in H by exact L. exact (W _ _ _ H).
    + rewrite nth_error_app2 in H by exact L. destruct (i - _)%nat as [|[|]]; cbn in H; try discriminate. injection H as <-. exact (W _ _ _ Ea).
  - cbn [sexec]. destruct (nth_error _ a) as [[ob|]|] eqn:Ea; try apply W. cbn [fine fst set_site sites]. destruct (Nat.eqb p r) eqn:Q; [|apply W].
    apply Nat.eqb_eq in Q. subst r. cbn [with_objects s_objects s_lists]. rewrite app_length. cbn [List.length]. intros H. destruct (Nat.lt_ge_cases i (List.length (s_objects (sites S p)))) as [L|L].
    + rewrite nth_error_app1 in H by exact L. specialize (W _ _ _ H). lia.
    + rewrite nth_error_app2 in H by exact L. destruct (i - _)%nat as [|[|]]; cbn in H; try discriminate. injection H as <-. cbn. lia.
  - cbn [sexec fine fst set_site sites]. destruct (Nat.eqb p r); apply W.
Qed.
Lemma srun_cons S o h : srun P source S (o :: h) =
  (fst (srun P source (fst (sexec P source S o)) h), snd (sexec P source S o) :: snd (srun P source (fst (sexec P source S o)) h)).
Proof. cbn [srun]. destruct (sexec P source S o) as [S1 x]. cbn [fst snd]. destruct (srun P source S1 h); reflexivity. Qed.
Lemma srun_app : forall h1 S h2, srun P source S (h1 ++ h2) =
  (fst (srun P source (fst (srun P source S h1)) h2), snd (srun P source S h1) ++ snd (srun P source (fst (srun P source S h1)) h2)).
Proof.
  induction h1 as [|o h1 IH]; intros S h2.
  - cbn [app srun fst snd]. destruct (srun P source S h2); reflexivity.
  - cbn [app]. rewrite !srun_cons, IH. reflexivity.
Qed.
Lemma srun_length : forall h S, List.length (snd (srun P source S h)) = List.length h.
Proof. induction h as [|o h IH]; intros S; [reflexivity|]. rewrite srun_cons. cbn [snd List.length]. rewrite IH. reflexivity. Qed.
Lemma wf_run : forall h S, wf S -> wf (fst (srun P source S h)).
Proof. induction h as [|o h IH]; intros S W; [exact W|]. rewrite srun_cons. apply IH, wf_step, W. Qed.
Lemma wf_boot cs : wf (boot cs).
Proof. intros p i h H. cbn in H. destruct i; discriminate. Qed.
Lemma strace_nth cs h1 o h2 : nth_error (strace P source cs (h1 ++ o :: h2)) (List.length h1) = Some (snd (sexec P source (after P source cs h1) o)).
Proof.
  unfold strace, after. rewrite srun_app. cbn [snd]. rewrite nth_error_app2; rewrite srun_length; [|lia]. rewrite Nat.sub_diag, srun_cons. reflexivity.
Qed.
Lemma after_app cs h1 h2 : after P source cs (h1 ++ h2) = fst (srun P source (after P source cs h1) h2).
Proof. unfold after. rewrite srun_app. reflexivity. Qed.
Lemma wf_after cs h : wf (after P source cs h).
Proof. apply wf_run, wf_boot. Qed.
End Steps.
(** *** Other processes *)
Lemma elsewhere_step P source S q o : elsewhere q o -> sites (fst (sexec P source S o)) q = sites S q.
Proof.
  assert (F : forall p s, p <> q -> sites (set_site S p s) q = sites S q).
  { intros p s N. cbn [set_site sites]. destruct (Nat.eqb q p) eqn:Q; [apply Nat.eqb_eq in Q; congruence|reflexivity]. }
  destruct o as [p o|p a b|p a l|p a|p a r|p r]; cbn [elsewhere]; intros N.
  - rewrite do_fst. cbn [sites]. destruct (Nat.eqb q p) eqn:Q; [apply Nat.eqb_eq in Q; congruence|reflexivity].
  - cbn [sexec]. destruct (nth_error _ a) as [[|]|]; try reflexivity. destruct (nth_error _ b) as [[|]|]; try reflexivity. apply F, N.
  - cbn [sexec]. destruct (nth_error _ a) as [[|]|]; try reflexivity. apply F, N.
  - cbn [sexec]. destruct (nth_error _ a) as [[|]|]; try reflexivity. apply F, N.
  - cbn [sexec]. destruct (nth_error _ a) as [[|]|]; try reflexivity. apply F, N.
  - apply F, N.
Qed.
Lemma elsewhere_run P source q : forall h S, Forall (elsewhere q) h -> sites (fst (srun P source S h)) q = sites S q.
Proof.
  induction h as [|o h IH]; intros S H; [reflexivity|]. inversion H as [|x r H1 H2]; subst. rewrite srun_cons. cbn [fst]. rewrite IH by exact H2. apply elsewhere_step, H1.
Qed.
(** *** An object whose list no other object holds *)
Definition sole (s : site) (j : nat) (hj : held) (l : list pystr) : Prop :=
  nth_error (s_objects s) j = Some (Ok hj) /\ nth (l_names hj) (s_lists s) [] = l /\
  forall i h, i <> j -> nth_error (s_objects s) i = Some (Ok h) -> l_names h <> l_names hj.
Lemma nth_error_snoc {A} (l : list A) x i y : nth_error (l ++ [x]) i = Some y -> nth_error l i = Some y \/ (i = List.length l /\ x = y).
Proof.
  intros H. destruct (Nat.lt_ge_cases i (List.length l)) as [L|L].
  - rewrite nth_error_app1 in H by exact L. auto.
  - rewrite nth_error_app2 in H by exact L. destruct (i - List.length l)%nat as [|k] eqn:Q; [|destruct k; discriminate].
    cbn in H. right. split; [lia|congruence].
Qed.
Lemma nth_error_snoc_old {A} (l : list A) x i y : nth_error l i = Some y -> nth_error (l ++ [x]) i = Some y.
Proof. intros H. rewrite nth_error_app1; [exact H|]. apply nth_error_Some. congruence. Qed.
Lemma sole_more s j hj l l' os : wf_site s -> sole s j hj l -> (forall i h, nth_error os i = Some (Ok h) -> nth_error (s_objects s) i = Some (Ok h) \/ (i <> j /\ l_names h = List.length (s_lists s))) ->
  nth_error os j = Some (Ok hj) -> sole (with_objects s (s_lists s ++ l') os) j hj l.
Proof.
  intros W (A & B & C) H J. pose proof (W _ _ A) as L. split; [exact J|]. cbn [with_objects s_lists s_objects]. split; [rewrite app_nth1 by exact L; exact B|].
  intros i h N E. destruct (H _ _ E) as [E'|[_ ->]]; [exact (C _ _ N E')|lia].
Qed.
Lemma sole_same s j hj l os : sole s j hj l -> (forall i h, nth_error os i = Some (Ok h) -> i <> j -> exists i' h', i' <> j /\ nth_error (s_objects s) i' = Some (Ok h') /\ l_names h = l_names h') ->
  nth_error os j = Some (Ok hj) -> sole (with_objects s (s_lists s) os) j hj l.
Proof.
  intros (A & B & C) H J. split; [exact J|]. split; [exact B|]. cbn [with_objects s_objects]. intros i h N E.
  destruct (H _ _ E N) as (i' & h' & N' & E' & ->). exact (C _ _ N' E').
Qed.
Lemma on_held_other s i f j : i <> j -> nth_error (on_held s i f) j = nth_error (s_objects s) j.
Proof. intros N. unfold on_held. destruct (nth_error (s_objects s) i) as [[h|]|]; try reflexivity. apply set_nth_other, N. Qed.
Lemma sole_step P source S q j hj l o : wf S -> sole (sites S q) j hj l -> spares q j o -> sole (sites (fst (sexec P source S o)) q) j hj l.
Proof.
  intros W H. specialize (W q) as Wq.
  assert (F : forall p s, (p = q -> sole s j hj l) -> sole (sites (set_site S p s) q) j hj l).
  { intros p s N. cbn [set_site sites]. destruct (Nat.eqb q p) eqn:Q; [apply Nat.eqb_eq in Q; apply N; congruence|exact H]. }
  assert (HJ := H). destruct HJ as (A & B & C).
  destruct o as [p o|p a b|p a m|p a|p a r|p r]; cbn [spares]; intros N.
  - rewrite do_fst. cbn [sites]. destruct (Nat.eqb q p) eqn:Q; [|exact H]. apply Nat.eqb_eq in Q. subst p.
    set (V := fst (wexec P source (sees S q) o)). clearbody V.
    cut (sole (store (sites S q) o V) j hj l); [intros (A' & B' & C'); split; [exact A'|]; split; [exact B'|exact C']|].
    destruct o; cbn [store]; try exact H.
    + destruct (nth_error (objs V) _) as [[ob|e]|]; [| |exact H].
      * apply sole_more; trivial; [|apply nth_error_snoc_old, A]. intros i h E. destruct (nth_error_snoc _ _ _ _ E) as [E'|[-> [= <-]]]; [auto|]. right.
        split; [|reflexivity]. intros Z. rewrite <- Z in A. rewrite (proj2 (nth_error_None _ _)) in A; [discriminate|lia].
      * apply sole_same; trivial; [|apply nth_error_snoc_old, A]. intros i h E N'. destruct (nth_error_snoc _ _ _ _ E) as [E'|[_ [=]]]. eauto.
    + destruct N as [N|N]; [congruence|]. apply sole_same; trivial; [|rewrite on_held_other by congruence; exact A].
      intros x h E N'. destruct (on_held_in _ _ _ _ _ E) as [E'|(<- & h0 & E' & ->)]; eauto.
    + destruct N as [N|N]; [congruence|]. apply sole_more; trivial; [|rewrite on_held_other by congruence; exact A].
      intros x h E. destruct (on_held_in _ _ _ _ _ E) as [E'|(<- & h0 & E' & ->)]; auto.
    + destruct N as [N|N]; [congruence|]. apply sole_same; trivial; [|rewrite on_held_other by congruence; exact A].
      intros x h E N'. destruct (on_held_in _ _ _ _ _ E) as [E'|(<- & h0 & E' & ->)]; eauto.
  - cbn [sexec]. destruct (nth_error _ a) as [[ha|]|] eqn:Ea; try exact H. destruct (nth_error _ b) as [[hb|]|] eqn:Eb; try exact H.
    apply F. intros ->. destruct N as [N|[N1 N2]]; [congruence|]. apply sole_same; trivial; [|rewrite on_held_other by congruence; exact A].
    intros x h E N'. destruct (on_held_in _ _ _ _ _ E) as [E'|(<- & h0 & E' & ->)]; eauto.
  - cbn [sexec]. destruct (nth_error _ a) as [[ha|]|] eqn:Ea; try exact H. apply F. intros ->. destruct N as [N|N]; [congruence|].
    split; [exact A|]. split; [|exact C]. cbn [with_objects s_lists]. rewrite set_nth_nth by exact (Wq _ _ Ea).
    destruct (Nat.eqb _ _) eqn:Q; [|exact B]. apply Nat.eqb_eq in Q. exfalso. exact (C _ _ N Ea Q).
  - cbn [sexec]. destruct (nth_error _ a) as [[ha|]|] eqn:Ea; try exact H. apply F. intros ->. destruct N as [N|N]; [congruence|].
    apply sole_same; trivial; [|apply nth_error_snoc_old, A]. intros i h E N'. destruct (nth_error_snoc _ _ _ _ E) as [E'|[_ [= <-]]]; eauto.
  - cbn [sexec]. destruct (nth_error _ a) as [[ob|]|] eqn:Ea; try exact H. apply F. intros ->.
    apply sole_more; trivial; [|apply nth_error_snoc_old, A]. intros i h E. destruct (nth_error_snoc _ _ _ _ E) as [E'|[-> [= <-]]]; [auto|]. right.
    split; [|reflexivity]. intros Z. rewrite <- Z in A. rewrite (proj2 (nth_error_None _ _)) in A; [discriminate|lia].
  - apply F. intros ->. contradiction.
Qed.
Lemma sole_run P source q j hj l : forall h S, wf S -> sole (sites S q) j hj l -> Forall (spares q j) h -> sole (sites (fst (srun P source S h)) q) j hj l.
Proof.
  induction h as [|o h IH]; intros S W H HF; [exact H|]. inversion HF as [|x r H1 H2]; subst. rewrite srun_cons. cbn [fst].
  apply IH; [apply wf_step, W|apply sole_step; assumption|exact H2].
Qed.
Definition as_object (h : held) (l : list pystr) : object := {| o_class := l_class h; o_networks := l; o_network := l_network h; o_alphabet := l_alphabet h |}.
Lemma sole_reads S q j hj l : sole (sites S q) j hj l -> reads S q j = Some (Ok (as_object hj l)).
Proof. intros (A & B & _). unfold reads, sees. cbn [objs]. rewrite nth_error_map_open, A. cbn [open]. rewrite B. reflexivity. Qed.
Lemma sole_new s ob : wf_site s -> sole (with_objects s (s_lists s ++ [o_networks ob]) (s_objects s ++ [Ok (hold (List.length (s_lists s)) ob)]))
  (List.length (s_objects s)) (hold (List.length (s_lists s)) ob) (o_networks ob).
Proof.
  intros W. split; [|split].
  - cbn [with_objects s_objects]. rewrite nth_error_app2, Nat.sub_diag by lia. reflexivity.
  - cbn [with_objects s_lists hold l_names]. rewrite app_nth2, Nat.sub_diag by lia. reflexivity.
  - cbn [with_objects s_objects]. intros i h N E. destruct (nth_error_snoc _ _ _ _ E) as [E'|[-> _]]; [|congruence]. specialize (W _ _ E'). cbn [hold l_names]. lia.
Qed.
(** *** Objects that hold the same list *)
Definition shares (s : site) (i j : nat) : Prop :=
  exists hi hj, nth_error (s_objects s) i = Some (Ok hi) /\ nth_error (s_objects s) j = Some (Ok hj) /\ l_names hi = l_names hj.
Lemma keep_names P source S q i h o : keeps_list q i o -> nth_error (s_objects (sites S q)) i = Some (Ok h) ->
  exists h', nth_error (s_objects (sites (fst (sexec P source S o)) q)) i = Some (Ok h') /\ l_names h' = l_names h.
Proof.
  intros N H.
  assert (F : forall p s, (p = q -> exists h', nth_error (s_objects s) i = Some (Ok h') /\ l_names h' = l_names h) -> exists h', nth_error (s_objects (sites (set_site S p s) q)) i = Some (Ok h') /\ l_names h' = l_names h).
  { intros p s K. cbn [set_site sites]. destruct (Nat.eqb q p) eqn:Q; [apply Nat.eqb_eq in Q; apply K; congruence|eauto]. }
  assert (G : forall a f, (a = i -> l_names (f h) = l_names h) -> exists h', nth_error (on_held (sites S q) a f) i = Some (Ok h') /\ l_names h' = l_names h).
  { intros a f K. destruct (Nat.eq_dec a i) as [->|D].
    - exists (f h). split; [|apply K; reflexivity]. unfold on_held. rewrite H, set_nth_error, Nat.eqb_refl, H. reflexivity.
    - exists h. rewrite on_held_other by exact D. auto. }
  destruct o as [p o|p a b|p a m|p a|p a r|p r]; cbn [keeps_list] in N.
  - rewrite do_fst. cbn [sites]. destruct (Nat.eqb q p) eqn:Q; [|eauto]. apply Nat.eqb_eq in Q. subst p. cbn [s_objects].
    set (V := fst (wexec P source (sees S q) o)). clearbody V. destruct o; cbn [store]; try (eauto; fail).
    + destruct (nth_error (objs V) _) as [[ob|e]|]; [| |eauto]; exists h; (split; [apply nth_error_snoc_old, H|reflexivity]).
    + apply G. reflexivity.
    + destruct N as [N|N]; [congruence|]. apply G. congruence.
    + apply G. reflexivity.
  - cbn [sexec]. destruct (nth_error _ a) as [[ha|]|] eqn:Ea; eauto. destruct (nth_error (s_objects (sites S p)) b) as [[hb|]|] eqn:Eb; eauto.
    apply F. intros ->. destruct N as [N|N]; [congruence|]. apply G. congruence.
  - cbn [sexec]. destruct (nth_error _ a) as [[ha|]|] eqn:Ea; eauto. apply F. intros ->. eauto.
  - cbn [sexec]. destruct (nth_error _ a) as [[ha|]|] eqn:Ea; eauto. apply F. intros ->. exists h. split; [apply nth_error_snoc_old, H|reflexivity].
  - cbn [sexec]. destruct (nth_error _ a) as [[ha|]|] eqn:Ea; eauto. apply F. intros ->. exists h. split; [apply nth_error_snoc_old, H|reflexivity].
  - apply F. intros ->. contradiction.
Qed.
Lemma shares_run P source q i j : forall h S, shares (sites S q) i j -> Forall (keeps_list q i) h -> Forall (keeps_list q j) h -> shares (sites (fst (srun P source S h)) q) i j.
Proof.
  induction h as [|o h IH]; intros S H HI HJ; [exact H|]. inversion HI as [|x r I1 I2]; inversion HJ as [|x' r' J1 J2]; subst. rewrite srun_cons. cbn [fst].
  apply IH; trivial. destruct H as (hi & hj & Ei & Ej & E). destruct (keep_names P source S q i hi o I1 Ei) as (hi' & Ei' & E1). destruct (keep_names P source S q j hj o J1 Ej) as (hj' & Ej' & E2).
  exists hi', hj'. split; [exact Ei'|]. split; [exact Ej'|]. congruence.
Qed.

(** ** C99 *)
(** Without copies, a process is that of C73, whatever number it has. *)
Lemma alone_run P source p : forall h S, wf S -> snd (srun P source S (List.map (Do p) h)) = snd (wrun P source (sees S p) h).
Proof.
  induction h as [|o h IH]; intros S W; [reflexivity|]. cbn [List.map]. rewrite srun_cons, wrun_cons. cbn [snd]. rewrite do_snd, IH by (apply wf_step, W).
  rewrite do_sees by apply W. reflexivity.
Qed.
Theorem C99_alone : forall P source cs p h, strace P source cs (List.map (Do p) h) = wtrace P source (cs p) h.
Proof. intros P source cs p h. unfold strace, wtrace. rewrite alone_run by apply wf_boot. reflexivity. Qed.
(** A copy, of whatever kind, has what the original has at that time; a child process has what its parent has. *)
Theorem C99_copies : forall P source cs h p i ob, let S := after P source cs h in reads S p i = Some (Ok ob) ->
  gains S (after P source cs (h ++ [Copy p i])) p ob /\
  (forall q, gains S (after P source cs (h ++ [Send p i q])) q ob) /\
  (forall q, let S' := after P source cs (h ++ [Fork p q]) in
     (forall j, reads S' q j = reads S p j) /\ (forall k, table_of S' q k = table_of S p k) /\ (forall r, r <> q -> sees S' r = sees S r)).
Proof.
  intros P source cs h p i ob S H. pose proof (wf_after P source cs h) as W. fold S in W.
  assert (R : forall q s r, r <> q -> sees (set_site S q s) r = sees S r).
  { intros q s r N. unfold sees. cbn [set_site sites drawn]. destruct (Nat.eqb r q) eqn:Q; [apply Nat.eqb_eq in Q; congruence|reflexivity]. }
  split; [|split].
  - rewrite after_app. fold S. rewrite srun_cons. cbn [srun fst]. cbn [sexec]. unfold reads, sees in H. cbn [objs] in H. rewrite nth_error_map_open in H.
    destruct (nth_error (s_objects (sites S p)) i) as [[hi|e]|] eqn:E; try discriminate H. injection H as <-. cbn [fine fst].
    split; [|split; [|apply R]].
    + unfold sees. cbn [objs set_site sites]. rewrite Nat.eqb_refl. cbn [with_objects s_objects]. rewrite map_app. reflexivity.
    + intros k. cbn [set_site sites]. rewrite Nat.eqb_refl. reflexivity.
  - intros q. rewrite after_app. fold S. rewrite srun_cons. cbn [srun fst]. cbn [sexec]. unfold reads in H. rewrite H. cbn [fine fst].
    split; [|split; [|apply R]].
    + unfold sees. cbn [objs set_site sites]. rewrite Nat.eqb_refl. cbn [with_objects s_objects]. rewrite map_app. cbn [List.map]. f_equal.
      * apply (map_open_more (sites S q)); [apply W|auto].
      * cbn [open with_objects s_lists hold l_names l_class l_network l_alphabet]. rewrite app_nth2, Nat.sub_diag by lia. destruct ob. reflexivity.
    + intros k. cbn [set_site sites]. rewrite Nat.eqb_refl. reflexivity.
  - intros q. cbv zeta. rewrite after_app. fold S. rewrite srun_cons. cbn [srun sexec fine fst]. split; [|split; [|apply R]].
    + intros j. unfold reads, sees. cbn [objs set_site sites]. rewrite Nat.eqb_refl. reflexivity.
    + intros k. unfold table_of. cbn [set_site sites]. rewrite Nat.eqb_refl. reflexivity.
Qed.
(** What other processes do, changes neither the objects nor the tables of a process. *)
Theorem C99_processes : forall P source cs h1 h2 q, Forall (elsewhere q) h2 ->
  let S := after P source cs h1 in let S' := after P source cs (h1 ++ h2) in
  (forall j, reads S' q j = reads S q j) /\ (forall k, table_of S' q k = table_of S q k).
Proof.
  intros P source cs h1 h2 q H S S'. unfold S'. rewrite after_app. fold S. pose proof (elsewhere_run P source q h2 S H) as E.
  split; intros j; unfold reads, table_of, sees; cbn [objs]; rewrite E; reflexivity.
Qed.
(** A transferred object (also a deep copy, which is sent to its own process)
    stays as it is, whatever is done to the original and to others, as long as
    no statement names it; *)
Theorem C99_sent : forall P source cs h1 p i ob q h2, let S := after P source cs h1 in
  reads S p i = Some (Ok ob) -> Forall (spares q (count S q)) h2 ->
  reads (after P source cs (h1 ++ Send p i q :: h2)) q (count S q) = Some (Ok ob).
Proof.
  intros P source cs h1 p i ob q h2 S H HF. rewrite after_app. fold S. rewrite srun_cons. cbn [fst]. pose proof (wf_after P source cs h1) as W. fold S in W.
  set (hj := hold (List.length (s_lists (sites S q))) ob).
  assert (L : sole (sites (fst (sexec P source S (Send p i q))) q) (count S q) hj (o_networks ob)).
  { cbn [sexec]. unfold reads in H. rewrite H. cbn [fine fst set_site sites]. rewrite Nat.eqb_refl. unfold count, sees. cbn [objs]. rewrite map_length. apply sole_new, W. }
  rewrite (sole_reads _ _ _ hj (o_networks ob)).
  - destruct ob; reflexivity.
  - apply sole_run; [apply wf_step, W|exact L|exact HF].
Qed.
(** and so does the original, whatever is done to the transferred one. *)
Theorem C99_made : forall P source cs h1 p k n h2, let S := after P source cs h1 in
  In n (List.map fst (table_of S p k)) -> Forall (spares p (count S p)) h2 ->
  exists ob, reads (after P source cs (h1 ++ Do p (Make k n) :: h2)) p (count S p) = Some (Ok ob) /\
    o_class ob = k /\ o_networks ob = List.map fst (table_of S p k) /\ o_network ob = n.
Proof.
  intros P source cs h1 p k n h2 S H HF. rewrite after_app. fold S. rewrite srun_cons. cbn [fst]. pose proof (wf_after P source cs h1) as W. fold S in W.
  apply str_in_spec in H.
  set (ob := {| o_class := k; o_networks := List.map fst (table_of S p k); o_network := n;
    o_alphabet := match c_alphabet (s_classes (sites S p) k) with Some (x :: a) => x :: a | _ => Bitcoin_ALPHABET end |}).
  set (hj := hold (List.length (s_lists (sites S p))) ob).
  assert (L : sole (sites (fst (sexec P source S (Do p (Make k n)))) p) (count S p) hj (o_networks ob)).
  { rewrite do_fst. cbn [sites]. rewrite Nat.eqb_refl. cbn [wexec fst store objs]. rewrite nth_error_app2 by (cbn [sees objs]; rewrite map_length; lia).
    cbn [sees objs classes]. rewrite map_length, Nat.sub_diag. cbn [nth_error]. rewrite init_names.
    fold (table_of S p k). rewrite H. unfold count, sees. cbn [objs]. rewrite map_length.
    pose proof (sole_new (sites S p) ob (W p)) as (A & B & C). split; [exact A|]. split; [exact B|exact C]. }
  exists ob. split; [|auto]. rewrite (sole_reads _ _ _ hj (o_networks ob)).
  - reflexivity.
  - apply sole_run; [apply wf_step, W|exact L|exact HF].
Qed.
(** copy.copy shares the list of names: as long as neither object is given
    another list, both read the same names, and a change of the list through
    either is read through both. *)
Theorem C99_shared : forall P source cs h1 p i ob h2, let S := after P source cs h1 in let j := count S p in
  reads S p i = Some (Ok ob) -> Forall (keeps_list p i) h2 -> Forall (keeps_list p j) h2 ->
  let S' := after P source cs (h1 ++ Copy p i :: h2) in
  exists oi oj, reads S' p i = Some (Ok oi) /\ reads S' p j = Some (Ok oj) /\ o_networks oi = o_networks oj /\
    forall x l, x = i \/ x = j -> exists oi' oj', let S'' := after P source cs (h1 ++ Copy p i :: h2 ++ [Edit p x l]) in
      reads S'' p i = Some (Ok oi') /\ reads S'' p j = Some (Ok oj') /\ o_networks oi' = l /\ o_networks oj' = l /\
      o_class oi' = o_class oi /\ o_network oi' = o_network oi /\ o_class oj' = o_class oj /\ o_network oj' = o_network oj.
Proof.
  intros P source cs h1 p i ob h2 S j H HI HJ S'.
  assert (E1 : h1 ++ Copy p i :: h2 = h1 ++ [Copy p i] ++ h2) by reflexivity.
  assert (SH : shares (sites S' p) i j).
  { unfold S'. rewrite after_app. fold S. rewrite srun_cons. cbn [fst]. apply shares_run; trivial.
    cbn [sexec]. unfold reads, sees in H. cbn [objs] in H. rewrite nth_error_map_open in H.
    destruct (nth_error (s_objects (sites S p)) i) as [[hi|e]|] eqn:E; try discriminate H. cbn [fine fst set_site sites]. rewrite Nat.eqb_refl. cbn [with_objects].
    exists hi, hi. cbn [s_objects]. split; [apply nth_error_snoc_old, E|]. split; [|reflexivity].
    change (nth_error (s_objects (sites S p) ++ [Ok hi]) (List.length (List.map (open (sites S p)) (s_objects (sites S p)))) = Some (Ok hi)).
    rewrite map_length, nth_error_app2, Nat.sub_diag by lia. reflexivity. }
  destruct SH as (hi & hj & Ei & Ej & EN). pose proof (wf_after P source cs (h1 ++ Copy p i :: h2)) as W. fold S' in W.
  exists (as_object hi (nth (l_names hi) (s_lists (sites S' p)) [])), (as_object hj (nth (l_names hj) (s_lists (sites S' p)) [])).
  split; [unfold reads, sees; cbn [objs]; rewrite nth_error_map_open, Ei; reflexivity|].
  split; [unfold reads, sees; cbn [objs]; rewrite nth_error_map_open, Ej; reflexivity|].
  split; [cbn [as_object o_networks]; rewrite EN; reflexivity|].
  intros x l X. exists (as_object hi l), (as_object hj l). cbv zeta.
  assert (E2 : after P source cs (h1 ++ Copy p i :: h2 ++ [Edit p x l]) = fst (sexec P source S' (Edit p x l))).
  { change (Copy p i :: h2 ++ [Edit p x l]) with ((Copy p i :: h2) ++ [Edit p x l]). rewrite app_assoc, after_app. fold S'. rewrite srun_cons. reflexivity. }
  rewrite E2. assert (EX : exists hx, nth_error (s_objects (sites S' p)) x = Some (Ok hx) /\ l_names hx = l_names hj) by (destruct X as [->| ->]; eauto).
  destruct EX as (hx & EX & EXN). cbn [sexec]. rewrite EX. cbn [fine fst]. unfold reads, sees. cbn [objs set_site sites]. rewrite Nat.eqb_refl. cbn [with_objects s_objects].
  rewrite !nth_error_map_open, Ei, Ej. cbn [open with_objects s_lists]. rewrite EXN, EN, set_nth_nth by exact (W p _ _ Ej). rewrite Nat.eqb_refl. repeat split.
Qed.
(** Method calls go by what the process reads of its object, and by the table of
    its class in this process: a name that is not in the list is refused, *)
Theorem C99_refused : forall P source cs h p i ob o h2, reads (after P source cs h) p i = Some (Ok ob) -> object_of o = Some i ->
  ~ In (chosen (network_arg o) (o_network ob)) (o_networks ob) ->
  exists r, nth_error (strace P source cs (h ++ Do p (Call o) :: h2)) (List.length h) = Some ([], WCall r) /\ raised r = Some (wrong_network (o_networks ob)).
Proof.
  intros P source cs h p i ob o h2 H HO HN. rewrite strace_nth, do_snd.
  destruct (call_refused P source (sees (after P source cs h) p) o i ob (o_networks ob) HO H eq_refl HN) as (r & E & R). exists r. rewrite E. auto.
Qed.
(** with an entry for the name the call does what it does with just that entry, *)
Theorem C99_used : forall P source cs h p i ob o h2 w a, prims_ok P -> reads (after P source cs h) p i = Some (Ok ob) -> object_of o = Some i ->
  let m := chosen (network_arg o) (o_network ob) in
  In m (o_networks ob) -> dict_get m (table_of (after P source cs h) p (o_class ob)) = Some (w, a) -> 0 <= w -> 0 <= a ->
  exists d b r, nth_error (strace P source cs (h ++ Do p (Call o) :: h2)) (List.length h) = Some (b, WCall r) /\
    result_with P (fun n => source (d + n)%nat) m w a o = Some (b, r).
Proof.
  intros P source cs h p i ob o h2 w a HP H HO m HI HG Hw Ha. rewrite strace_nth, do_snd.
  destruct (call_used P source (sees (after P source cs h) p) o i ob w a HP HO H HI HG Hw Ha) as (b & r & E & R). eexists _, b, r. rewrite E. split; [reflexivity|exact R].
Qed.
(** and without one it does not return. *)
Theorem C99_missing : forall P source cs h p i ob o h2, reads (after P source cs h) p i = Some (Ok ob) -> object_of o = Some i ->
  let m := chosen (network_arg o) (o_network ob) in
  In m (o_networks ob) -> dict_get m (table_of (after P source cs h) p (o_class ob)) = None ->
  exists d b r, nth_error (strace P source cs (h ++ Do p (Call o) :: h2)) (List.length h) = Some (b, WCall r) /\
    match o with Encrypt _ _ _ _ => raised r = Some (Builtin KeyError) | _ => True end /\
    forall w a, exists r', result_with P (fun n => source (d + n)%nat) m w a o = Some (b, r') /\
      (raised r = Some (Builtin KeyError) \/ exists e, raised r = Some e /\ raised r' = Some e).
Proof.
  intros P source cs h p i ob o h2 H HO m HI HG. rewrite strace_nth, do_snd.
  destruct (call_missing P source (sees (after P source cs h) p) o i ob HO H HI HG) as (b & r & E & R). eexists _, b, r. rewrite E. split; [reflexivity|exact R].
Qed.
(** All together: an object made in one process and sent to another, with anything
    else happening before, in between and after, accepts there the names its
    class's table had in the first process when it was made, and takes the
    prefixes from the table of the second at the time of the call. *)
Theorem C99_worker : forall P source cs h1 p k n h2 q h3 o h4 w a, prims_ok P ->
  let S1 := after P source cs h1 in let i := count S1 p in
  let known := List.map fst (table_of S1 p k) in
  In n known -> Forall (spares p i) h2 ->
  let g := h1 ++ Do p (Make k n) :: h2 in let j := count (after P source cs g) q in
  Forall (spares q j) h3 -> object_of o = Some j ->
  let h := g ++ Send p i q :: h3 in
  let m := chosen (network_arg o) n in
  (~ In m known -> exists r, nth_error (strace P source cs (h ++ Do q (Call o) :: h4)) (List.length h) = Some ([], WCall r) /\ raised r = Some (wrong_network known)) /\
  (In m known -> dict_get m (table_of (after P source cs h) q k) = Some (w, a) -> 0 <= w -> 0 <= a ->
   exists d b r, nth_error (strace P source cs (h ++ Do q (Call o) :: h4)) (List.length h) = Some (b, WCall r) /\
     result_with P (fun x => source (d + x)%nat) m w a o = Some (b, r)).
Proof.
  intros P source cs h1 p k n h2 q h3 o h4 w a HP S1 i known HN H2 g j H3 HO h m.
  destruct (C99_made P source cs h1 p k n h2 HN H2) as (ob & R1 & A1 & A2 & A3). fold S1 i g in R1.
  pose proof (C99_sent P source cs g p i ob q h3 R1 H3) as R2. fold j h in R2.
  unfold m. rewrite <- A3. split.
  - intros HM. unfold known in HM |- *. fold S1 in A2. rewrite <- A2 in HM |- *. apply (C99_refused _ _ _ _ _ _ _ _ _ R2 HO HM).
  - intros HM HG Hw Ha. apply (C99_used _ _ _ _ _ _ _ _ _ w a HP R2 HO); trivial; [rewrite A2; exact HM|rewrite A1; exact HG].
Qed.
(** Processes never get the same random bytes, forked ones included. *)
Lemma srun_drawn P source : forall h S, List.concat (List.map fst (snd (srun P source S h))) = List.map source (seq (drawn S) (drawn (fst (srun P source S h)) - drawn S)) /\
  (drawn S <= drawn (fst (srun P source S h)))%nat.
Proof.
  induction h as [|o h IH]; intros S; [cbn; rewrite Nat.sub_diag; split; [reflexivity|lia]|].
  rewrite srun_cons. cbn [fst snd List.map List.concat]. specialize (IH (fst (sexec P source S o))).
  assert (K : fst (snd (sexec P source S o)) = List.map source (seq (drawn S) (drawn (fst (sexec P source S o)) - drawn S)) /\ (drawn S <= drawn (fst (sexec P source S o)))%nat).
  { assert (Z : forall V (x : bytes * woutcome), drawn V = drawn S -> fst x = [] -> fst (snd (V, x)) = List.map source (seq (drawn S) (drawn (fst (V, x)) - drawn S)) /\ (drawn S <= drawn (fst (V, x)))%nat).
    { intros V x E F. cbn [fst snd]. rewrite F, E, Nat.sub_diag. split; [reflexivity|lia]. }
    destruct o as [p o|p a b|p a l|p a|p a r|p r].
    - destruct (wrun_used P source [o] (sees S p)) as [E L]. rewrite wrun_cons in E, L. cbn [fst snd wrun List.map List.concat] in E, L. rewrite app_nil_r in E.
      rewrite do_snd, do_fst. cbn [drawn]. split; [exact E|exact L].
    - cbn [sexec]. destruct (nth_error _ a) as [[|]|]; try (apply Z; reflexivity). destruct (nth_error _ b) as [[|]|]; apply Z; reflexivity.
    - cbn [sexec]. destruct (nth_error _ a) as [[|]|]; apply Z; reflexivity.
    - cbn [sexec]. destruct (nth_error _ a) as [[|]|]; apply Z; reflexivity.
    - cbn [sexec]. destruct (nth_error _ a) as [[|]|]; apply Z; reflexivity.
    - apply Z; reflexivity. }
  destruct K as [E L], IH as [I L']. split; [|lia]. set (S1 := fst (sexec P source S o)) in *. set (S2 := fst (srun P source S1 h)) in *.
  rewrite E, I. replace (drawn S2 - drawn S)%nat with ((drawn S1 - drawn S) + (drawn S2 - drawn S1))%nat by lia.
  rewrite seq_map_split. do 3 f_equal. lia.
Qed.
Theorem C99_each_byte_once : forall P source cs h,
  let taken := List.concat (List.map fst (strace P source cs h)) in taken = List.map source (seq 0 (List.length taken)).
Proof.
  intros P source cs h. cbv zeta. unfold strace. destruct (srun_drawn P source h (boot cs)) as [E _]. cbn [drawn boot] in E.
  rewrite E at 1. f_equal. f_equal. rewrite E, map_length, seq_length. reflexivity.
Qed.

(** ** The hypotheses are met *)
Definition everywhere (p k : nat) : coin := coin_Bitcoin.
(** A copy shares the list: emptied through the copy, it is empty for the
    original; the deep copy and the object sent to process 1 keep their names.
    A change of process 0's table reaches the child forked afterwards, not process 1. *)
Example C99_met : let h := [Do 0 (Make 0 (str "testnet")); Copy 0 0; Send 0 0 0; Send 0 0 1; Edit 0 1 []; Do 0 (PutWif 0 (str "mainnet") 9); Fork 0 2] in
  forall P source, let S := after P source everywhere h in
  let names p i := match reads S p i with Some (Ok o) => Some (o_networks o, o_network o) | _ => None end in
  let all := [str "mainnet"; str "testnet"; str "regtest"] in
  names 0%nat 0%nat = Some ([], str "testnet") /\ names 0%nat 1%nat = Some ([], str "testnet") /\ names 0%nat 2%nat = Some (all, str "testnet") /\
  names 1%nat 0%nat = Some (all, str "testnet") /\ names 2%nat 0%nat = Some ([], str "testnet") /\ names 2%nat 2%nat = Some (all, str "testnet") /\
  dict_get (str "mainnet") (table_of S 2 0) = Some (9, 0) /\ dict_get (str "mainnet") (table_of S 1 0) = Some (0x80, 0) /\
  Forall (keeps_list 0 0) h /\ Forall (spares 0 2) h /\ Forall (elsewhere 1) [Do 0 (Make 0 (str "testnet")); Copy 0 0; Fork 0 2].
Proof.
  intros h P source S names all. assert (V : h = h) by reflexivity. repeat (split; [vm_compute; reflexivity|]).
  split; [|split]; unfold h; repeat (apply Forall_cons); try apply Forall_nil; cbn; try exact I; try discriminate; right; discriminate.
Qed.
(** An object made in process 0 decrypts in process 1, which has given its
    testnet mainnet's prefixes. *)
Example C99_run : forall source, exists e d,
  nth_error (strace toy source everywhere
    [Do 0 (Make 0 (str "testnet")); Send 0 0 1; Do 1 (Put 0 (str "testnet") 0x80 0); Do 1 (Call (Decrypt 0 e (str "TestingOneTwoThree") None true))]) 3 =
  Some ([], WCall (ODecrypt (Ok (DDetail d)))).
Proof.
  intros source. destruct C16_example as (e & x & D & _). exists e, x.
  destruct (C99_worker toy source everywhere [] 0 0 (str "testnet") [] 1 [Do 1 (Put 0 (str "testnet") 0x80 0)]
    (Decrypt 0 e (str "TestingOneTwoThree") None true) [] 0x80 0 toy_ok) as (_ & H); try reflexivity; try (right; left; reflexivity); try (constructor; [exact I|constructor]).
  - constructor.
  - destruct H as (d & b & r & T & R); try reflexivity; try discriminate; [right; left; reflexivity|].
    cbn [app List.length] in T. change (count _ _) with 0%nat in T. rewrite T. clear T. change (chosen _ _) with (str "testnet") in R.
    rewrite (result_with_eq toy _ (str "testnet") 0x80 0 (Decrypt 0 e (str "TestingOneTwoThree") None true) 0 eq_refl) in R. cbn [on_first exec] in R.
    unfold with_object in R. cbn [objects nth_error snd] in R.
    set (self := {| s_cryptocurrency := _; s_networks := _; s_network := _; s_alphabet := _ |}) in R.
    assert (N : decrypt toy btc e (str "TestingOneTwoThree") None true = decrypt toy self e (str "TestingOneTwoThree") None true).
    { destruct (session_net_sel _ _ _ _ btc_session) as (n & N). apply (decrypt_prefixes toy _ _ _ _ _ (str "testnet") 0x80 0 _ _ _ toy_ok N).
      constructor; try reflexivity; lia. }
    rewrite D in N. rewrite <- N in R. inversion R. reflexivity.
Qed.
