(** * C68: calls from several threads *)
From Coq Require Import Lia ZifyBool ZifyNat ZifyN.
From Verif Require Import Py Prims PyFacts Cryptocurrencies Bip38 Bip38Facts Sessions History Threads PropHistory.

(** ** Specification: the same calls one after another, in one thread *)
(** One call from beginning to end, given the random bytes it uses: the objects
    after it, and what it returns. *)
Definition whole (P : prims) (h : list (res bip38)) (a : act) (b : bytes) : list (res bip38) * result :=
  let on i (f : bip38 -> outcome) := match nth_error h i with Some (Ok self) => Returned (f self) | _ => Returned ONoObject end in
  match a with
  | Do (New c n) => (h ++ [bip38_init c n], Made (List.length h) (match bip38_init c n with Ok _ => None | Raise e => Some e end))
  | Do (Intermediate pw lot sequence salt) => (h, Returned (OIntermediate (intermediate_code P b pw lot sequence salt)))
  | Do (Encrypt i wif pw n) => (h, on i (fun self => OEncrypt (encrypt P self wif pw n)))
  | Do (Create i code t seed n) => (h, on i (fun self => OCreate (create_new_encrypted_wif P b self code t seed n)))
  | Do (Confirm i pw code n d) => (h, on i (fun self => OConfirm (confirm_code P self pw code n d)))
  | Do (Decrypt i e pw n d) => (h, on i (fun self => ODecrypt (decrypt P self e pw n d)))
  | SetNetwork i n =>
      match nth_error h i with
      | Some (Ok self) => (firstn i h ++ Ok {| s_cryptocurrency := s_cryptocurrency self; s_networks := s_networks self;
                                              s_network := n; s_alphabet := s_alphabet self |} :: skipn (S i) h, Assigned)
      | _ => (h, Returned ONoObject)
      end
  end.
Fixpoint one_after_another (P : prims) (h : list (res bip38)) (l : list (act * bytes)) : list result :=
  match l with
  | [] => []
  | (a, b) :: r => snd (whole P h a b) :: one_after_another P (fst (whole P h a b)) r
  end.

(** A call of a thread, with the piece of the random source it got. *)
Record entry := { e_thread : nat; e_act : act; e_from : nat; e_count : nat }.
Definition e_bytes (source : nat -> byte) (e : entry) : bytes := List.map source (seq (e_from e) (e_count e)).
Definition apart (e e' : entry) : Prop := (e_from e + e_count e <= e_from e' \/ e_from e' + e_count e' <= e_from e)%nat.

(** The number of random bytes of a call that returned [r]. *)
Definition count_right (a : act) (n : nat) (r : result) : Prop :=
  match a with
  | Do (Intermediate pw lot sequence salt) =>
      (wants_random (Intermediate pw lot sequence salt) -> n = 8%nat) /\ (~ wants_random (Intermediate pw lot sequence salt) -> n = 0%nat)
  | Do (Create i code t seed network) =>
      (wants_random (Create i code t seed network) -> forall x, r = Returned (OCreate (Ok x)) -> n = 24%nat) /\
      (~ wants_random (Create i code t seed network) -> n = 0%nat) /\ (n = 0%nat \/ n = 24%nat)
  | _ => n = 0%nat
  end.

(** [order] is an order of all calls begun so far in which, done one after another with
    the random bytes they got, they return what they did return in the threads: *)
Definition explains (P : prims) (source : nat -> byte) (program : nat -> list result -> option act) (p : process) (order : list entry) : Prop :=
  let answers := List.combine order (one_after_another P [] (List.map (fun e => (e_act e, e_bytes source e)) order)) in
  (forall t, exists mine pending,
     filter (fun x => Nat.eqb (e_thread (fst x)) t) answers = mine ++ pending /\
     (* the calls of thread t that have returned, and the one under way, if any *)
     List.map snd mine = results (threads p t) /\ List.length pending = (match current (threads p t) with Some _ => 1 | None => 0 end)%nat /\
     (* made in the order of the thread's program *)
     (forall k x, nth_error (mine ++ pending) k = Some x ->
        program t (firstn k (List.map snd mine)) = Some (e_act (fst x))) /\
     Forall (fun x => count_right (e_act (fst x)) (e_count (fst x)) (snd x)) mine) /\
  (* no random byte is used twice, and none is lost *)
  (forall i j e e', i <> j -> nth_error order i = Some e -> nth_error order j = Some e' -> apart e e') /\
  list_sum (List.map e_count order) = position p /\ Forall (fun e => (e_from e + e_count e <= position p)%nat) order.

(** ** Proof: the order in which calls start *)
Section Proof.
  Variables (P : prims) (source : nat -> byte) (program : nat -> list result -> option act).

  (** calls so far, the newest first, each with the objects as they were *)
  Definition glog := list (list (res bip38) * entry).
  Fixpoint mark (t from n : nat) (L : glog) : glog :=
    match L with
    | [] => []
    | (h, e) :: r => if Nat.eqb (e_thread e) t then (h, {| e_thread := t; e_act := e_act e; e_from := from; e_count := n |}) :: r
                     else (h, e) :: mark t from n r
    end.
  Definition gstep (x : process * glog) (t : nat) : process * glog :=
    let (p, L) := x in
    (step P source program p t,
     match current (threads p t) with
     | Some r => match r_random r, asks (r_op r) (r_self r) with
                 | None, S n => mark t (position p) (S n) L
                 | _, _ => L
                 end
     | None => match program t (results (threads p t)) with
               | None => L
               | Some a => (heap p, {| e_thread := t; e_act := a; e_from := 0; e_count := 0 |}) :: L
               end
     end).
  Definition grun (schedule : list nat) : process * glog := fold_left gstep schedule (start, []).
  Lemma grun_fst s : fst (grun s) = run_threads P source program s.
  Proof using.
    unfold grun, run_threads. assert (G : forall s x, fst (fold_left gstep s x) = fold_left (step P source program) s (fst x)).
    { clear. induction s as [|t s IH]; intros [p L]; [reflexivity|]. cbn [fold_left]. rewrite IH. reflexivity. }
    apply G.
  Qed.

  Definition rres (x : list (res bip38) * entry) : result := snd (whole P (fst x) (e_act (snd x)) (e_bytes source (snd x))).
  Definition own (t : nat) (L : glog) : glog := filter (fun x => Nat.eqb (e_thread (snd x)) t) L.
  Fixpoint chain (L : glog) (h : list (res bip38)) : Prop :=
    match L with
    | [] => h = []
    | (h0, e) :: r => h = fst (whole P h0 (e_act e) []) /\ chain r h0
    end.

  Lemma whole_heap h a b b' : fst (whole P h a b) = fst (whole P h a b').
  Proof using. destruct a as [[]|]; cbn [whole]; try reflexivity. Qed.
  Lemma oaa_snoc : forall l h a b, one_after_another P h (l ++ [(a, b)]) =
    one_after_another P h l ++ [snd (whole P (fold_left (fun h x => fst (whole P h (fst x) (snd x))) l h) a b)].
  Proof using. induction l as [|[a0 b0] l IH]; intros h a b; [reflexivity|]. cbn [app one_after_another fold_left fst snd]. rewrite IH. reflexivity. Qed.
  Lemma chain_heap : forall L h, chain L h ->
    fold_left (fun h x => fst (whole P h (fst x) (snd x))) (List.map (fun e => (e_act e, e_bytes source e)) (rev (List.map snd L))) [] = h.
  Proof using.
    induction L as [|[h0 e] L IH]; intros h C; [symmetry; exact C|]. cbn [chain] in C. destruct C as [-> C].
    cbn [List.map rev snd]. rewrite map_app, fold_left_app, (IH _ C). cbn [List.map fold_left fst snd]. apply whole_heap.
  Qed.
  Lemma chain_answers : forall L h, chain L h ->
    one_after_another P [] (List.map (fun e => (e_act e, e_bytes source e)) (rev (List.map snd L))) = rev (List.map rres L).
  Proof using.
    induction L as [|[h0 e] L IH]; intros h C; [reflexivity|]. cbn [chain] in C. destruct C as [-> C].
    cbn [List.map rev snd]. rewrite map_app. cbn [List.map]. rewrite oaa_snoc, (IH _ C), (chain_heap _ _ C). reflexivity.
  Qed.

  Lemma mark_split t : forall L x l, own t L = x :: l ->
    exists L2 L1, L = L2 ++ x :: L1 /\ own t L2 = [] /\ own t L1 = l /\ e_thread (snd x) = t /\
      forall f n, mark t f n L = L2 ++ (fst x, {| e_thread := t; e_act := e_act (snd x); e_from := f; e_count := n |}) :: L1.
  Proof using.
    induction L as [|[h e] L IH]; intros x l E; [discriminate|]. cbn [own filter snd] in E. destruct (Nat.eqb_spec (e_thread e) t) as [T|T].
    - injection E as <- <-. exists [], L. repeat split; try reflexivity; [exact T|]. intros f n. cbn [mark fst snd app]. destruct (Nat.eqb_spec (e_thread e) t); [reflexivity|contradiction].
    - destruct (IH x l E) as (L2 & L1 & -> & O2 & O1 & Tx & M). exists ((h, e) :: L2), L1. repeat split; trivial.
      + cbn [own filter snd]. destruct (Nat.eqb_spec (e_thread e) t); [contradiction|exact O2].
      + intros f n. cbn [mark]. destruct (Nat.eqb_spec (e_thread e) t); [contradiction|]. rewrite M. reflexivity.
  Qed.
  Lemma own_app t L L' : own t (L ++ L') = own t L ++ own t L'.
  Proof using. unfold own. apply filter_app. Qed.

  Lemma apart_sym e e' : apart e e' -> apart e' e.
  Proof using. unfold apart. tauto. Qed.
  Lemma pairs_mid : forall (l1 l2 : list entry) x, ForallOrdPairs apart (l1 ++ x :: l2) <-> ForallOrdPairs apart (l1 ++ l2) /\ Forall (apart x) (l1 ++ l2).
  Proof using.
    induction l1 as [|y l1 IH]; intros l2 x; cbn [app].
    - split; [intros H; inversion H; subst; auto|intros [H1 H2]; constructor; assumption].
    - split.
      + intros H. inversion H as [|? ? Fy Fr]; subst. apply IH in Fr. destruct Fr as [Fr Fx].
        apply Forall_app in Fy. destruct Fy as [Fy1 Fy2]. inversion Fy2; subst. split.
        * constructor; [apply Forall_app; split; assumption|exact Fr].
        * constructor; [apply apart_sym; assumption|exact Fx].
      + intros [H1 H2]. inversion H1 as [|? ? Fy Fr]; subst. inversion H2 as [|? ? Ay Fx]; subst.
        constructor; [|apply IH; split; assumption]. apply Forall_app in Fy. destruct Fy as [Fy1 Fy2].
        apply Forall_app. split; [exact Fy1|]. constructor; [apply apart_sym, Ay|exact Fy2].
  Qed.
  Lemma pairs_nth : forall l i j e e', ForallOrdPairs apart l -> i <> j -> nth_error l i = Some e -> nth_error l j = Some e' -> apart e e'.
  Proof using.
    induction l as [|x l IH]; intros i j e e' F N I J; [destruct i; discriminate|]. inversion F as [|? ? Fx Fr]; subst.
    rewrite Forall_forall in Fx. destruct i as [|i], j as [|j]; cbn in I, J.
    - contradiction.
    - injection I as <-. apply Fx. eapply nth_error_In, J.
    - injection J as <-. apply apart_sym, Fx. eapply nth_error_In, I.
    - apply (IH i j); trivial. congruence.
  Qed.

  Definition needed (x : list (res bip38) * entry) : nat :=
    match e_act (snd x) with Do o => asks o (receiver (fst x) o) | SetNetwork _ _ => 0 end.
  Definition is_new (o : op) : bool := match o with New _ _ => true | _ => false end.

  Record inv (p : process) (L : glog) : Prop := {
    i_chain : chain L (heap p);
    i_thread : forall t, match current (threads p t) with
      | None => rev (List.map rres (own t L)) = results (threads p t) /\ Forall (fun x => e_count (snd x) = needed x) (own t L)
      | Some r => exists x l, own t L = x :: l /\ rev (List.map rres l) = results (threads p t) /\ Forall (fun x => e_count (snd x) = needed x) l /\
          e_act (snd x) = Do (r_op r) /\ is_new (r_op r) = false /\ receiver (fst x) (r_op r) = r_self r /\
          match r_random r with
          | None => e_count (snd x) = 0%nat
          | Some b => e_bytes source (snd x) = b /\ e_count (snd x) = asks (r_op r) (r_self r)
          end
      end;
    i_program : forall t l2 x l1, own t L = l2 ++ x :: l1 -> program t (rev (List.map rres l1)) = Some (e_act (snd x));
    i_sum : list_sum (List.map (fun x => e_count (snd x)) L) = position p;
    i_bound : Forall (fun x => (e_from (snd x) + e_count (snd x) <= position p)%nat) L;
    i_apart : ForallOrdPairs apart (List.map snd L)
  }.

  Lemma finish_whole h o b : is_new o = false -> snd (whole P h (Do o) b) = Returned (finish P o (receiver h o) b).
  Proof using.
    destruct o; cbn [is_new whole finish receiver snd]; intros H; try discriminate; try reflexivity;
      unfold object; destruct (nth_error h i) as [[|]|]; reflexivity.
  Qed.
  Lemma whole_same_heap h o b : is_new o = false -> fst (whole P h (Do o) b) = h.
  Proof using. destruct o; cbn; intros H; try discriminate; reflexivity. Qed.
  Lemma replace_split : forall (h : list (res bip38)) i x y, nth_error h i = Some y -> replace h i x = firstn i h ++ x :: skipn (S i) h.
  Proof using.
    induction h as [|z h IH]; intros [|i] x y E; try discriminate; [reflexivity|]. cbn in E. cbn [replace firstn skipn app]. f_equal. eapply IH, E.
  Qed.
  Lemma st_same p t th : set_thread p t th t = th.
  Proof using. unfold set_thread. rewrite Nat.eqb_refl. reflexivity. Qed.
  Lemma st_other p t th u : u <> t -> set_thread p t th u = threads p u.
  Proof using. intros N. unfold set_thread. destruct (Nat.eqb_spec u t); [contradiction|reflexivity]. Qed.
  Lemma own_cons_same t h a f n L : own t ((h, {| e_thread := t; e_act := a; e_from := f; e_count := n |}) :: L) = (h, {| e_thread := t; e_act := a; e_from := f; e_count := n |}) :: own t L.
  Proof using. cbn [own filter snd e_thread]. rewrite Nat.eqb_refl. reflexivity. Qed.
  Lemma own_cons_other t u h a f n L : u <> t -> own u ((h, {| e_thread := t; e_act := a; e_from := f; e_count := n |}) :: L) = own u L.
  Proof using. intros N. cbn [own filter snd e_thread]. destruct (Nat.eqb_spec t u); [congruence|reflexivity]. Qed.

  (** a call that begins *)
  Lemma inv_start p L t a th' h' :
    inv p L -> current (threads p t) = None -> program t (results (threads p t)) = Some a ->
    h' = fst (whole P (heap p) a []) ->
    (let x := (heap p, {| e_thread := t; e_act := a; e_from := 0; e_count := 0 |}) in
     match current th' with
     | None => results th' = results (threads p t) ++ [rres x] /\ needed x = 0%nat
     | Some r => results th' = results (threads p t) /\ a = Do (r_op r) /\ is_new (r_op r) = false /\ receiver (heap p) (r_op r) = r_self r /\ r_random r = None
     end) ->
    inv {| heap := h'; position := position p; threads := set_thread p t th' |} ((heap p, {| e_thread := t; e_act := a; e_from := 0; e_count := 0 |}) :: L).
  Proof using.
    intros I C Pr Hh T. cbv zeta in T. pose proof (i_thread _ _ I t) as It. rewrite C in It. destruct It as [It Ic]. split; cbn [heap position threads].
    - cbn [chain]. split; [exact Hh|apply (i_chain _ _ I)].
    - intros u. destruct (Nat.eq_dec u t) as [->|N].
      + rewrite st_same, own_cons_same. destruct (current th') as [r|].
        * destruct T as (R & -> & NW & RC & RN). do 2 eexists. split; [reflexivity|]. rewrite R, RN. cbn [fst snd e_act e_count]. repeat split; assumption.
        * destruct T as [R Nd]. cbn [List.map rev]. rewrite It, R. split; [reflexivity|]. constructor; [cbn [snd e_count]; congruence|exact Ic].
      + rewrite st_other, own_cons_other by exact N. apply (i_thread _ _ I).
    - intros u l2 x l1 E. destruct (Nat.eq_dec u t) as [->|N].
      + rewrite own_cons_same in E. destruct l2 as [|y l2]; cbn [app] in E; injection E as.
        * subst x l1. cbn [snd e_act]. rewrite It. exact Pr.
        * eapply (i_program _ _ I). eassumption.
      + rewrite own_cons_other in E by exact N. eapply (i_program _ _ I), E.
    - cbn [List.map list_sum snd e_count]. apply (i_sum _ _ I).
    - constructor; [cbn; lia|apply (i_bound _ _ I)].
    - cbn [List.map snd]. constructor; [|apply (i_apart _ _ I)]. apply Forall_forall. intros e _. left. cbn. lia.
  Qed.

  Lemma inv_step p L t : inv p L -> inv (fst (gstep (p, L) t)) (snd (gstep (p, L) t)).
  Proof using.
    intros I. cbn [gstep fst snd]. pose proof (i_thread _ _ I t) as It. unfold step. destruct (current (threads p t)) as [r|] eqn:C.
    - destruct It as (x & l & Eo & Er & Ec & Ea & NW & Rc & Rr).
      assert (Fin : forall b, e_bytes source (snd x) = b -> e_count (snd x) = asks (r_op r) (r_self r) ->
        inv {| heap := heap p; position := position p; threads := set_thread p t {| results := results (threads p t) ++ [Returned (finish P (r_op r) (r_self r) b)]; current := None |} |} L).
      { intros b Eb En. split; cbn [heap position threads]; try apply I.
        intros u. destruct (Nat.eq_dec u t) as [->|N]; [|rewrite st_other by exact N; apply (i_thread _ _ I)].
        rewrite st_same. cbn [current results]. rewrite Eo. cbn [List.map rev]. rewrite Er. split.
        - f_equal. f_equal. unfold rres. rewrite Ea, Eb, finish_whole by exact NW. rewrite Rc. reflexivity.
        - constructor; [|exact Ec]. unfold needed. rewrite Ea, Rc. exact En. }
      destruct (r_random r) as [b|] eqn:R.
      + destruct Rr as [Rb Rn]. apply Fin; assumption.
      + destruct (asks (r_op r) (r_self r)) as [|n] eqn:A.
        * apply Fin; [|exact Rr]. unfold e_bytes. rewrite Rr. reflexivity.
        * clear Fin. destruct (mark_split t L x l Eo) as (L2 & L1 & EL & O2 & O1 & Tx & M). rewrite M. clear M.
          set (x' := (fst x, {| e_thread := t; e_act := e_act (snd x); e_from := position p; e_count := S n |})).
          assert (Ot : own t (L2 ++ x' :: L1) = x' :: l).
          { rewrite own_app, O2. unfold x'. rewrite own_cons_same, O1. reflexivity. }
          assert (Ou : forall u, u <> t -> own u (L2 ++ x' :: L1) = own u L).
          { intros u N. rewrite EL, !own_app. f_equal. unfold x'. rewrite own_cons_other by exact N.
            cbn [own filter]. rewrite Tx. destruct (Nat.eqb_spec t u); [congruence|reflexivity]. }
          split; cbn [heap position threads].
          -- assert (CC : forall L2 h, chain (L2 ++ x :: L1) h -> chain (L2 ++ x' :: L1) h).
             { clear. intros L2. unfold x'. destruct x as [hx ex]. induction L2 as [|[h0 e] L2 IH]; intros h; cbn [app chain fst snd e_act]; [tauto|]. intros [-> H]. split; [reflexivity|apply IH, H]. }
             apply CC. rewrite <- EL. apply (i_chain _ _ I).
          -- intros u. destruct (Nat.eq_dec u t) as [->|N].
             ++ rewrite st_same. cbn [current]. exists x', l. split; [exact Ot|]. cbn [results r_op r_self r_random].
                unfold x'. cbn [fst snd e_act e_count]. repeat split; trivial. symmetry. exact A.
             ++ rewrite st_other by exact N. rewrite (Ou u N). apply (i_thread _ _ I).
          -- intros u l2 y l1 E. destruct (Nat.eq_dec u t) as [->|N].
             ++ rewrite Ot in E. destruct l2 as [|z l2]; cbn [app] in E; injection E as.
                ** subst y l1. change (e_act (snd x')) with (e_act (snd x)). apply (i_program _ _ I t [] x l). exact Eo.
                ** apply (i_program _ _ I t (x :: l2) y l1). cbn [app]. congruence.
             ++ rewrite (Ou u N) in E. eapply (i_program _ _ I), E.
          -- pose proof (i_sum _ _ I) as Q. rewrite EL in Q. rewrite map_app, list_sum_app in *. cbn [List.map list_sum fold_right] in *.
             unfold x'. cbn [snd e_count]. unfold list_sum in *. cbn [fold_right] in *. lia.
          -- pose proof (i_bound _ _ I) as Q. rewrite EL in Q. apply Forall_app in Q. destruct Q as [Q2 Q1]. inversion Q1; subst.
             apply Forall_app. split; [eapply Forall_impl; [|exact Q2]; cbn; intros; lia|]. constructor; [cbn; lia|].
             eapply Forall_impl; [|eassumption]. cbn. intros. lia.
          -- pose proof (i_apart _ _ I) as Q. rewrite EL in Q. rewrite map_app in *. cbn [List.map] in *. apply pairs_mid in Q. apply pairs_mid.
             split; [apply Q|]. pose proof (i_bound _ _ I) as B. rewrite EL in B. apply Forall_app in B. destruct B as [B2 B1]. inversion B1; subst.
             assert (G : forall l0 : glog, Forall (fun x => (e_from (snd x) + e_count (snd x) <= position p)%nat) l0 -> Forall (apart (snd x')) (List.map snd l0)).
             { intros l0 F. apply Forall_map. eapply Forall_impl; [|exact F]. intros y Hy. right. exact Hy. }
             apply Forall_app. split; apply G; assumption.
    - destruct (program t (results (threads p t))) as [a|] eqn:Pr; [|exact I].
      destruct a as [o|i n].
      + assert (M : is_new o = false -> inv {| heap := heap p; position := position p; threads := set_thread p t {| results := results (threads p t);
            current := Some {| r_op := o; r_self := receiver (heap p) o; r_random := None |} |} |}
            ((heap p, {| e_thread := t; e_act := Do o; e_from := 0; e_count := 0 |}) :: L)).
        { intros NW. apply inv_start; trivial; [symmetry; apply whole_same_heap, NW|]. cbv zeta. cbn [current results r_op r_self r_random]. auto. }
        destruct o as [c n| | | | |]; try (apply M; reflexivity). apply inv_start; trivial. cbv zeta. cbn [current results]. split; reflexivity.
      + unfold object. destruct (nth_error (heap p) i) as [[self|e]|] eqn:E.
        * apply inv_start; trivial.
          -- cbn [whole]. rewrite E. cbn [fst]. rewrite (replace_split _ _ _ _ E). reflexivity.
          -- cbv zeta. cbn [current results]. unfold rres, needed. cbn [fst snd e_act whole]. rewrite E. split; reflexivity.
        * apply inv_start; trivial; cbn [whole]; rewrite ?E; [reflexivity|]. cbv zeta. cbn [current results]. unfold rres, needed. cbn [fst snd e_act whole]. rewrite E. split; reflexivity.
        * apply inv_start; trivial; cbn [whole]; rewrite ?E; [reflexivity|]. cbv zeta. cbn [current results]. unfold rres, needed. cbn [fst snd e_act whole]. rewrite E. split; reflexivity.
  Qed.
  Lemma inv_run s : inv (fst (grun s)) (snd (grun s)).
  Proof using.
    unfold grun. assert (G : forall s x, inv (fst x) (snd x) -> inv (fst (fold_left gstep s x)) (snd (fold_left gstep s x))).
    { clear. induction s as [|t s IH]; intros [p L] H; [exact H|]. cbn [fold_left]. apply IH. apply inv_step, H. }
    apply G. split; cbn [fst snd].
    - reflexivity.
    - intros t. split; [reflexivity|constructor].
    - intros t [|y l2] x l1 E; discriminate.
    - reflexivity.
    - constructor.
    - constructor.
  Qed.

  Lemma needed_right x : e_count (snd x) = needed x -> count_right (e_act (snd x)) (e_count (snd x)) (rres x).
  Proof using.
    intros E. unfold rres, needed in *. destruct x as [h e]. cbn [fst snd] in *. destruct (e_act e) as [o|i n]; cbn [count_right]; [|exact E].
    destruct o as [c n|pw l q salt|i w p n|i c t seed n|i p c n d|i e0 p n d]; cbn [asks receiver] in E; try (destruct (object h i); exact E); try exact E.
    - cbn [wants_random]. rewrite <- !truthy_false. destruct (truthy salt); split; intros; congruence.
    - cbn [wants_random]. rewrite <- !truthy_false. cbn [whole snd]. unfold object in E. destruct (nth_error h i) as [[self|]|].
      + destruct (select_network self n) eqn:S.
        * destruct (truthy seed); repeat split; intros; try congruence; auto.
        * split; [|auto]. intros _ x. rewrite (create_no_net _ _ _ _ _ _ _ _ S). discriminate.
      + split; [discriminate|auto].
      + split; [discriminate|auto].
  Qed.

  Lemma filter_rev {A} (f : A -> bool) l : filter f (rev l) = rev (filter f l).
  Proof using.
    induction l as [|x l IH]; [reflexivity|]. cbn [rev]. rewrite filter_app, IH. cbn [filter]. destruct (f x); [reflexivity|apply app_nil_r].
  Qed.
  Lemma combine_rev_map {A B C} (f : A -> B) (g : A -> C) (l : list A) : List.combine (rev (List.map f l)) (rev (List.map g l)) = rev (List.map (fun x => (f x, g x)) l).
  Proof using.
    rewrite <- !map_rev. induction (rev l) as [|x r IH]; [reflexivity|]. cbn. rewrite IH. reflexivity.
  Qed.
  Lemma filter_pairs t (L : glog) : filter (fun x : entry * result => Nat.eqb (e_thread (fst x)) t) (List.map (fun x => (snd x, rres x)) L) =
    List.map (fun x => (snd x, rres x)) (own t L).
  Proof using. induction L as [|x L IH]; [reflexivity|]. cbn [List.map filter own fst]. destruct (Nat.eqb (e_thread (snd x)) t); cbn [List.map]; rewrite IH; reflexivity. Qed.

  Lemma inv_explains p L : inv p L -> explains P source program p (rev (List.map snd L)).
  Proof using.
    intros I. unfold explains. rewrite (chain_answers _ _ (i_chain _ _ I)), combine_rev_map. split; [|split; [|split]].
    - intros t. rewrite filter_rev, filter_pairs. pose proof (i_thread _ _ I t) as It. pose proof (i_program _ _ I t) as Ip.
      assert (Nth : forall l0 k x, own t L = l0 -> nth_error (rev (List.map (fun x => (snd x, rres x)) l0)) k = Some x ->
         program t (firstn k (rev (List.map rres l0))) = Some (e_act (fst x))).
      { intros l0 k x El H. rewrite <- map_rev in H. rewrite nth_error_map in H. destruct (nth_error (rev l0) k) as [y|] eqn:Ey; [|discriminate]. cbn in H. injection H as <-.
        destruct (nth_error_split _ _ Ey) as (a & b & Eab & <-).
        assert (E2 : l0 = rev b ++ y :: rev a).
        { rewrite <- (rev_involutive l0), Eab, rev_app_distr. cbn [rev]. rewrite <- app_assoc. reflexivity. }
        cbn [fst]. rewrite <- (Ip (rev b) y (rev a)) by congruence. f_equal. rewrite <- !map_rev, Eab, rev_involutive, map_app, firstn_app, map_length, Nat.sub_diag.
        cbn [firstn]. rewrite app_nil_r, firstn_all2 by (rewrite map_length; lia). reflexivity. }
      assert (Snd : forall l0, List.map snd (rev (List.map (fun x : list (res bip38) * entry => (snd x, rres x)) l0)) = rev (List.map rres l0)).
      { intros l0. rewrite map_rev, map_map. reflexivity. }
      assert (Cnt : forall l0, Forall (fun x => e_count (snd x) = needed x) l0 ->
         Forall (fun x => count_right (e_act (fst x)) (e_count (fst x)) (snd x)) (rev (List.map (fun x : list (res bip38) * entry => (snd x, rres x)) l0))).
      { intros l0 F. apply Forall_rev, Forall_map. eapply Forall_impl; [|exact F]. intros x Hx. cbn [fst snd]. apply needed_right, Hx. }
      destruct (current (threads p t)) as [r|].
      + destruct It as (x & l & Eo & Er & Ec & _). exists (rev (List.map (fun x => (snd x, rres x)) l)), [(snd x, rres x)].
        rewrite Eo. split; [reflexivity|]. rewrite Snd. split; [exact Er|]. split; [reflexivity|]. split; [|apply Cnt, Ec].
        intros k y H. change (rev (List.map (fun x => (snd x, rres x)) l) ++ [(snd x, rres x)]) with (rev (List.map (fun x => (snd x, rres x)) (x :: l))) in H.
        specialize (Nth (x :: l) k y Eo H). cbn [List.map rev] in Nth. rewrite <- Nth. f_equal. rewrite firstn_app.
        assert (Lk : (k < S (List.length l))%nat).
        { assert (Some y <> None) by discriminate. rewrite <- H in H0. apply nth_error_Some in H0. rewrite rev_length, map_length in H0. exact H0. }
        rewrite rev_length, map_length. replace (k - List.length l)%nat with 0%nat by lia. cbn [firstn]. rewrite app_nil_r. reflexivity.
      + destruct It as [Er Ec]. exists (rev (List.map (fun x => (snd x, rres x)) (own t L))), []. rewrite app_nil_r, Snd. split; [reflexivity|]. split; [exact Er|]. split; [reflexivity|].
        split; [|apply Cnt, Ec]. intros k x H. apply (Nth (own t L)); trivial.
    - intros i j e e' N H H'. apply (pairs_nth (rev (List.map snd L)) i j); trivial. clear -I.
      pose proof (i_apart _ _ I) as F. revert F. generalize (List.map snd L). induction l as [|x l IH]; intros F; [constructor|].
      inversion F as [|? ? Fx Fr]; subst. cbn [rev]. apply pairs_mid. rewrite app_nil_r. split; [apply IH, Fr|apply Forall_rev, Fx].
    - rewrite <- (i_sum _ _ I). rewrite <- (map_map snd e_count), map_rev. generalize (List.map e_count (List.map snd L)). clear. induction l as [|x l IH]; [reflexivity|].
      cbn [rev]. rewrite list_sum_app, IH. unfold list_sum. cbn [fold_right]. lia.
    - apply Forall_rev, Forall_map, (i_bound _ _ I).
  Qed.

  Lemma mark_calls t f n : forall L, List.map (fun x => (e_thread (snd x), e_act (snd x))) (mark t f n L) = List.map (fun x => (e_thread (snd x), e_act (snd x))) L.
  Proof using.
    induction L as [|[h e] L IH]; [reflexivity|]. cbn [mark]. destruct (Nat.eqb_spec (e_thread e) t) as [<-|N]; cbn [List.map snd e_thread e_act]; [reflexivity|]. f_equal. exact IH.
  Qed.
  Lemma grows s2 : forall x, exists l, List.map (fun x => (e_thread (snd x), e_act (snd x))) (snd (fold_left gstep s2 x)) = l ++ List.map (fun x => (e_thread (snd x), e_act (snd x))) (snd x).
  Proof using.
    induction s2 as [|t s2 IH]; intros [p L]; [exists []; reflexivity|]. cbn [fold_left]. destruct (IH (gstep (p, L) t)) as [l E]. rewrite E. clear E IH. cbn [gstep snd].
    destruct (current (threads p t)) as [r|].
    - destruct (r_random r); [exists l; reflexivity|]. destruct (asks (r_op r) (r_self r)); [exists l; reflexivity|]. rewrite mark_calls. exists l. reflexivity.
    - destruct (program t (results (threads p t))) as [a|]; [|exists l; reflexivity]. cbn [List.map snd e_thread e_act]. exists (l ++ [(t, a)]). rewrite <- app_assoc. reflexivity.
  Qed.
End Proof.

(** ** C68 *)
(** Whatever the threads do and however they are scheduled, there is an order of
    all calls begun that explains what every thread saw; a call enters the order when
    it begins and the order only grows at its end, so it is the order in which the calls
    begin. *)
Theorem C68_linearizable : forall P source program, exists order : list nat -> list entry,
  (forall schedule, explains P source program (run_threads P source program schedule) (order schedule)) /\
  (forall schedule later, exists l,
     List.map (fun e => (e_thread e, e_act e)) (order (schedule ++ later)) =
     List.map (fun e => (e_thread e, e_act e)) (order schedule) ++ l).
Proof.
  intros P source program. exists (fun s => rev (List.map snd (snd (grun P source program s)))). split.
  - intros s. rewrite <- grun_fst. apply inv_explains, inv_run.
  - intros s1 s2. unfold grun. rewrite fold_left_app. destruct (grows P source program s2 (fold_left (gstep P source program) s1 (start, []))) as [l E].
    exists (rev l). rewrite !map_rev, !map_map, E, rev_app_distr. reflexivity.
Qed.

(** Object [i] was made by the constructor call [BIP38(c, n)] of some thread. *)
Definition made_by (program : nat -> list result -> option act) (p : process) (i : nat) (c : coin_arg) (n : pystr) : Prop :=
  exists t k, nth_error (results (threads p t)) k = Some (Made i None) /\
              program t (firstn k (results (threads p t))) = Some (Do (New c n)).
Definition never_assigns (program : nat -> list result -> option act) : Prop := forall t l i n, program t l <> Some (SetNetwork i n).

Section Alone.
  Variables (P : prims) (source : nat -> byte) (program : nat -> list result -> option act).
  Hypothesis NA : never_assigns program.

  Lemma entry_program p L x : inv P source program p L -> In x L -> exists l, program (e_thread (snd x)) l = Some (e_act (snd x)).
  Proof using.
    intros I H. assert (O : In x (own (e_thread (snd x)) L)) by (apply filter_In; split; [exact H|apply Nat.eqb_refl]).
    apply in_split in O. destruct O as (l1 & l2 & O). eexists. eapply (i_program _ _ _ _ _ I), O.
  Qed.
  Lemma grows_heap h a b : (forall i n, a <> SetNetwork i n) -> exists s, fst (whole P h a b) = h ++ s.
  Proof using.
    intros N. destruct a as [[]|i n]; cbn [whole fst]; try (exists []; rewrite app_nil_r; reflexivity); [eexists; reflexivity|]. destruct (N i n eq_refl).
  Qed.
  Lemma chain_grows : forall L h x, chain P L h -> Forall (fun x => forall i n, e_act (snd x) <> SetNetwork i n) L -> In x L ->
    exists s, h = fst (whole P (fst x) (e_act (snd x)) []) ++ s.
  Proof using.
    induction L as [|[h0 e] L IH]; intros h x C F H; [destruct H|]. cbn [chain] in C. destruct C as [-> C]. inversion F as [|? ? F1 F2]; subst. destruct H as [<-|H].
    - exists []. rewrite app_nil_r. reflexivity.
    - destruct (IH h0 x C F2 H) as [s ->]. cbn [snd] in F1. destruct (grows_heap (fst (whole P (fst x) (e_act (snd x)) []) ++ s) (e_act e) [] F1) as [s' E].
      rewrite E, <- app_assoc. eexists. reflexivity.
  Qed.
  (** the k-th result of a thread, and the call it comes from *)
  Lemma result_entry p L t k r a : inv P source program p L -> nth_error (results (threads p t)) k = Some r -> program t (firstn k (results (threads p t))) = Some a ->
    exists x, In x L /\ rres P source x = r /\ e_act (snd x) = a /\ e_count (snd x) = needed x.
  Proof using.
    intros I Hk Hp.
    assert (G : exists l l0, own t L = l0 ++ l /\ rev (List.map (rres P source) l) = results (threads p t) /\ Forall (fun x => e_count (snd x) = needed x) l).
    { pose proof (i_thread _ _ _ _ _ I t) as It. destruct (current (threads p t)).
      - destruct It as (x & l & Eo & Er & Ec & _). exists l, [x]. auto.
      - exists (own t L), []. tauto. }
    destruct G as (l & l0 & Eo & Er & Ec). rewrite <- Er in Hk, Hp. rewrite <- map_rev in Hk, Hp. rewrite nth_error_map in Hk.
    destruct (nth_error (rev l) k) as [x|] eqn:E; [|discriminate]. cbn in Hk. injection Hk as Hk.
    destruct (nth_error_split _ _ E) as (u & v & Euv & <-). assert (El : l = rev v ++ x :: rev u).
    { rewrite <- (rev_involutive l), Euv, rev_app_distr. cbn [rev]. rewrite <- app_assoc. reflexivity. }
    exists x. split; [|split; [exact Hk|split]].
    - assert (Io : In x (own t L)) by (rewrite Eo, El; apply in_or_app; right; apply in_or_app; right; left; reflexivity). apply filter_In in Io. apply Io.
    - pose proof (i_program _ _ _ _ _ I t (l0 ++ rev v) x (rev u)) as Q. rewrite <- app_assoc, <- El in Q. specialize (Q Eo).
      rewrite Euv, map_app, firstn_app, map_length, Nat.sub_diag in Hp. cbn [firstn] in Hp. rewrite app_nil_r, firstn_all2 in Hp by (rewrite map_length; lia).
      rewrite <- map_rev, rev_involutive in Q. congruence.
    - rewrite Forall_forall in Ec. apply Ec. rewrite El. apply in_or_app. right. left. reflexivity.
  Qed.

  Lemma made_heap p L i c n x : inv P source program p L -> made_by program p i c n -> In x L ->
    (exists self, bip38_init c n = Ok self) /\ (object (fst x) i = None \/ nth_error (fst x) i = Some (bip38_init c n)).
  Proof using NA.
    intros I (t & k & Hk & Hp) Hx.
    assert (F : Forall (fun x => forall i n, e_act (snd x) <> SetNetwork i n) L).
    { apply Forall_forall. intros y Hy j m. destruct (entry_program _ _ _ I Hy) as [l E]. intros X. rewrite X in E. exact (NA _ _ _ _ E). }
    destruct (result_entry _ _ _ _ _ _ I Hk Hp) as (y & Hy & Ry & Ay & _).
    unfold rres in Ry. rewrite Ay in Ry. cbn [whole snd] in Ry. injection Ry as Li Ei.
    destruct (bip38_init c n) as [self|e] eqn:B; [|discriminate Ei]. split; [exists self; reflexivity|].
    destruct (chain_grows _ _ y (i_chain _ _ _ _ _ I) F Hy) as [s Es]. rewrite Ay in Es. cbn [whole fst] in Es. rewrite B in Es.
    destruct (chain_grows _ _ x (i_chain _ _ _ _ _ I) F Hx) as [s2 Es2].
    destruct (entry_program _ _ _ I Hx) as [l El].
    destruct (grows_heap (fst x) (e_act (snd x)) []) as [s3 Es3]. { intros j m X. rewrite X in El. exact (NA _ _ _ _ El). }
    rewrite Es3, <- app_assoc in Es2.
    assert (N : nth_error (heap p) i = Some (Ok self)).
    { rewrite Es, <- Li, <- app_assoc. rewrite nth_error_app2 by lia. rewrite Nat.sub_diag. reflexivity. }
    destruct (Nat.lt_ge_cases i (List.length (fst x))) as [Lt|Ge].
    - right. rewrite Es2, nth_error_app1 in N by exact Lt. exact N.
    - left. unfold object. rewrite (proj2 (nth_error_None (fst x) i) Ge). reflexivity.
  Qed.
End Alone.

Lemma shifted (source : nat -> byte) d n : List.map (fun k => source (d + k)%nat) (seq 0 n) = List.map source (seq d n).
Proof.
  rewrite <- (map_map (fun k => (d + k)%nat) source). f_equal.
  assert (G : forall z, List.map (fun k => (d + k)%nat) (seq z n) = seq (d + z) n).
  { induction n as [|n IH]; intros z; [reflexivity|]. cbn [seq List.map]. f_equal. rewrite IH. f_equal. lia. }
  rewrite G, Nat.add_0_r. reflexivity.
Qed.

(** If nobody assigns to [network], a call on an object that exists does, under every
    schedule, what it does on a new object made in the same way in a process that
    does nothing else. *)
Theorem C68_alone : forall P source program schedule t k o r i c n, never_assigns program ->
  let p := run_threads P source program schedule in
  nth_error (results (threads p t)) k = Some (Returned r) -> program t (firstn k (results (threads p t))) = Some (Do o) ->
  object_of o = Some i -> made_by program p i c n -> r <> ONoObject ->
  exists d b, nth_error (trace P (fun k => source (d + k)%nat) [New c n; on_first o]) 1 = Some (b, r).
Proof.
  intros P source program schedule t k o r i c n NA p Hk Hp Ho Hm Hr.
  pose proof (inv_run P source program schedule) as I. rewrite grun_fst in I. fold p in I. clearbody p.
  destruct (result_entry P source program p _ t k (Returned r) (Do o) I Hk Hp) as (x & Hx & Rx & Ax & Cx).
  destruct (made_heap P source program NA p _ i c n x I Hm Hx) as [[self B] Ob].
  exists (e_from (snd x)). rewrite (trace_nth P _ [New c n] (on_first o) []). cbn [run exec fst initial objects app]. rewrite B.
  unfold rres in Rx. unfold needed in Cx. rewrite Ax in Rx, Cx.
  assert (NW : is_new o = false) by (destruct o; [discriminate Ho|reflexivity..]). rewrite (finish_whole P _ _ _ NW) in Rx. injection Rx as Rx.
  assert (Rc : receiver (fst x) o = Some self).
  { destruct Ob as [Ob|Ob].
    - exfalso. apply Hr. rewrite <- Rx. destruct o; cbn in Ho; try discriminate; injection Ho as ->; cbn [receiver]; rewrite Ob; reflexivity.
    - destruct o; cbn in Ho; try discriminate; injection Ho as ->; cbn [receiver]; unfold object; rewrite Ob, B; reflexivity. }
  rewrite Rc in Rx, Cx.
  destruct o as [c0 n0|pw l q salt|j w pw m|j code ty seed m|j pw code m dt|j e0 pw m dt]; try discriminate Ho; cbn [finish] in Rx;
    cbn [on_first exec]; unfold with_object; cbn [objects nth_error]; try (eexists; cbn [snd]; rewrite Rx; reflexivity).
  cbn [asks] in Cx. destruct (select_network self m) as [sel|er] eqn:S.
  - destruct (truthy seed) eqn:T.
    + eexists. cbn [snd]. rewrite <- Rx. f_equal. f_equal. f_equal. unfold create_new_encrypted_wif. rewrite T. reflexivity.
    + eexists. cbn [snd]. rewrite <- Rx. unfold e_bytes. rewrite Cx. unfold urandom. cbn [taken]. rewrite shifted. reflexivity.
  - eexists. cbn [snd]. rewrite <- Rx. rewrite !(create_no_net _ _ _ _ _ _ _ _ S). reflexivity.
Qed.
(** Without random input there is only one thing it can return. *)
Theorem C68_deterministic : forall P source program schedule t k o r i c n, never_assigns program ->
  let p := run_threads P source program schedule in
  nth_error (results (threads p t)) k = Some (Returned r) -> program t (firstn k (results (threads p t))) = Some (Do o) ->
  object_of o = Some i -> made_by program p i c n -> r <> ONoObject -> ~ wants_random o ->
  forall source', nth_error (trace P source' [New c n; on_first o]) 1 = Some ([], r).
Proof.
  intros P source program schedule t k o r i c n NA p Hk Hp Ho Hm Hr W source'.
  destruct (C68_alone P source program schedule t k o r i c n NA Hk Hp Ho Hm Hr) as (d & b & E).
  assert (O0 : object_of (on_first o) = Some 0%nat) by (destruct o; cbn in *; congruence).
  assert (W0 : ~ wants_random (on_first o)) by (destruct o; exact W).
  destruct (C65_deterministic P (fun k => source (d + k)%nat) source' [New c n] [New c n] (on_first o) (on_first o) [] [] 0%nat 0%nat c n W0 O0 O0 eq_refl eq_refl eq_refl) as (r' & E1 & E2).
  change (List.length [New c n]) with 1%nat in E1, E2. cbn [app] in E1, E2. rewrite E in E1. injection E1 as _ <-. exact E2.
Qed.

(** Assigning to [network] of an object: its methods then do without a network
    argument what they did with this one, and the same as before with an argument. *)
Lemma select_assigned self n : n <> [] -> select_network (set_network self n) None = select_network self (Some n).
Proof. intros H. destruct n as [|x n]; [congruence|]. reflexivity. Qed.
Lemma select_given self n x m : select_network (set_network self n) (Some (x :: m)) = select_network self (Some (x :: m)).
Proof. reflexivity. Qed.
Lemma by_select P self self' network network' : s_cryptocurrency self = s_cryptocurrency self' -> select_network self network = select_network self' network' ->
  (forall wif pw, encrypt P self wif pw network = encrypt P self' wif pw network') /\
  (forall u code t seed, create_new_encrypted_wif P u self code t seed network = create_new_encrypted_wif P u self' code t seed network') /\
  (forall pw code detail, confirm_code P self pw code network detail = confirm_code P self' pw code network' detail) /\
  (forall e pw detail, decrypt P self e pw network detail = decrypt P self' e pw network' detail).
Proof.
  intros C S. assert (A : forall n k t, address_of P self n k t = address_of P self' n k t) by (intros; unfold address_of; rewrite C; reflexivity).
  repeat split; intros.
  - unfold encrypt. rewrite S, C. destruct (select_network self' network'); cbn [bind]; [|reflexivity].
    unfold address_of. rewrite C. reflexivity.
  - unfold create_new_encrypted_wif. rewrite S. destruct (select_network self' network'); cbn [bind]; [|reflexivity].
    unfold address_of. rewrite C. reflexivity.
  - unfold confirm_code. rewrite S. destruct (select_network self' network'); cbn [bind]; [|reflexivity].
    unfold address_of. rewrite C. reflexivity.
  - unfold decrypt. rewrite S. destruct (select_network self' network'); cbn [bind]; [|reflexivity].
    unfold decrypt_no_ec, decrypt_ec, address_of. rewrite C. reflexivity.
Qed.
Theorem C68_assigned_network : forall P self n, n <> [] ->
  (forall wif pw, encrypt P (set_network self n) wif pw None = encrypt P self wif pw (Some n)) /\
  (forall u code t seed, create_new_encrypted_wif P u (set_network self n) code t seed None = create_new_encrypted_wif P u self code t seed (Some n)) /\
  (forall pw code detail, confirm_code P (set_network self n) pw code None detail = confirm_code P self pw code (Some n) detail) /\
  (forall e pw detail, decrypt P (set_network self n) e pw None detail = decrypt P self e pw (Some n) detail).
Proof. intros P self n H. apply by_select; [reflexivity|apply select_assigned, H]. Qed.
Theorem C68_given_network : forall P self n m, m <> [] ->
  (forall wif pw, encrypt P (set_network self n) wif pw (Some m) = encrypt P self wif pw (Some m)) /\
  (forall u code t seed, create_new_encrypted_wif P u (set_network self n) code t seed (Some m) = create_new_encrypted_wif P u self code t seed (Some m)) /\
  (forall pw code detail, confirm_code P (set_network self n) pw code (Some m) detail = confirm_code P self pw code (Some m) detail) /\
  (forall e pw detail, decrypt P (set_network self n) e pw (Some m) detail = decrypt P self e pw (Some m) detail).
Proof. intros P self n m H. apply by_select; [reflexivity|]. destruct m as [|x m]; [congruence|]. apply select_given. Qed.

(** A concrete case: thread 0 makes an object and decrypts with it while both threads
    ask for an intermediate code; their draws are interleaved. *)
Definition two_threads : nat -> list result -> option act := fun t l =>
  match t, List.length l with
  | 0%nat, 0%nat => Some (Do (New (CoinClass coin_Bitcoin) (str "mainnet")))
  | 0%nat, 1%nat => Some (Do (Intermediate (str "a") None None PNone))
  | 0%nat, 2%nat => Some (Do (Decrypt 0 (str "6P") (str "a") None false))
  | 1%nat, 0%nat => Some (Do (Intermediate (str "b") None None PNone))
  | _, _ => None
  end.
Example C68_example : forall P source,
  let p := run_threads P source two_threads [0; 0; 1; 1; 0; 0; 0; 1; 0]%nat in
  never_assigns two_threads /\ made_by two_threads p 0 (CoinClass coin_Bitcoin) (str "mainnet") /\ position p = 16%nat /\
  results (threads p 1) = [Returned (OIntermediate (intermediate_code P (List.map source (seq 0 8)) (str "b") None None PNone))] /\
  exists self, bip38_init (CoinClass coin_Bitcoin) (str "mainnet") = Ok self /\
  results (threads p 0) = [Made 0 None; Returned (OIntermediate (intermediate_code P (List.map source (seq 8 8)) (str "a") None None PNone));
                           Returned (ODecrypt (decrypt P self (str "6P") (str "a") None false))].
Proof.
  intros P source p. split; [|split; [|split; [|split]]].
  - intros [|[|t]] [|x [|y [|z l]]] i n; discriminate.
  - exists 0%nat, 0%nat. split; reflexivity.
  - reflexivity.
  - reflexivity.
  - eexists. split; reflexivity.
Qed.
