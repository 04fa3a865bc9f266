(** * C94: coin classes that inherit or share tables of networks, and programs
    that give a class another table (cryptocurrencies.py:12-15; bip38.py:79-88). *)
From Coq Require Import Lia.
From Verif Require Import Py Prims Const Spec PyFacts Exceptions ErrorFacts Utils UtilsFacts Base58 SpecBip38 SpecRecords SpecSession Cryptocurrencies P2PKHAddress Wif Bip38 History Worlds
  CodecFacts2 Bip38Facts Bip38Facts2 Sessions RecordFacts ECFacts Toy PropIntermediate PropCreate PropEncrypt PropDecrypt PropSession PropUnique PropHistory PropWorlds Inherit.

(** ** What is claimed *)
(** Every class holds or inherits one of the process's dicts. *)
Definition all_see_a_table (F : family) (holds : nat -> option nat) (dicts : list table) : Prop :=
  (forall k, exists j t, In j (resolution F k) /\ holds j = Some t) /\
  (forall j t, holds j = Some t -> (t < List.length dicts)%nat).
(** The number of the dict class [k] sees: that of the first class in its
    resolution order that holds one *)
Definition number (F : family) (holds : nat -> option nat) (k : nat) : nat :=
  match List.find (fun j => match holds j with Some _ => true | None => false end) (resolution F k) with
  | Some j => match holds j with Some t => t | None => 0%nat end
  | None => 0%nat
  end.
(** What the operations [h] make of it: who holds which dict afterwards, if [n]
    dicts have been made before; the dicts made; and the statements about
    entries, with the number of the dict in place of the class *)
Fixpoint holds_after (F : family) (holds : nat -> option nat) (n : nat) (h : list iop) : nat -> option nat :=
  match h with
  | [] => holds
  | Item _ :: r => holds_after F holds n r
  | NewTable k _ :: r => holds_after F (fun i => if Nat.eqb i k then Some n else holds i) (S n) r
  | ShareTable k j :: r => holds_after F (fun i => if Nat.eqb i k then Some (number F holds j) else holds i) n r
  end.
Fixpoint made (h : list iop) : list table :=
  match h with [] => [] | NewTable _ t :: r => t :: made r | _ :: r => made r end.
Definition on_dict (number : nat -> nat) (o : wop) : wop :=
  match o with
  | Put k m w a => Put (number k) m w a
  | PutWif k m w => PutWif (number k) m w
  | PutAddress k m a => PutAddress (number k) m a
  | Del k m => Del (number k) m
  | o => o
  end.
Fixpoint on_dicts (F : family) (holds : nat -> option nat) (n : nat) (h : list iop) : list wop :=
  match h with
  | [] => []
  | Item o :: r => on_dict (number F holds) o :: on_dicts F holds n r
  | NewTable k _ :: r => on_dicts F (fun i => if Nat.eqb i k then Some n else holds i) (S n) r
  | ShareTable k j :: r => on_dicts F (fun i => if Nat.eqb i k then Some (number F holds j) else holds i) n r
  end.
Definition as_coin (l : list table) (t : nat) : coin := {| c_name := str "Coin"; c_networks := nth t l []; c_alphabet := None |}.
(** The entry for [m] that class [k] sees after [h], and the names it sees: those
    of C73 for the dict it then sees *)
Definition seen_entry (F : family) (holds : nat -> option nat) (dicts : list table) (h : list iop) (k : nat) (m : pystr) : option (Z * Z) :=
  entry (as_coin (dicts ++ made h)) (on_dicts F holds (List.length dicts) h) (number F (holds_after F holds (List.length dicts) h) k) m.
Definition seen_names (F : family) (holds : nat -> option nat) (dicts : list table) (h : list iop) (k : nat) : list pystr :=
  names (as_coin (dicts ++ made h)) (on_dicts F holds (List.length dicts) h) (number F (holds_after F holds (List.length dicts) h) k).
(** The operations of Worlds.v among [h]: the attributes of objects are those of C73. *)
Fixpoint items (h : list iop) : list wop := match h with [] => [] | Item o :: r => o :: items r | _ :: r => items r end.

(** ** Proofs *)
Lemma number_first F holds k : number F holds k = first_own holds (resolution F k).
Proof.
  unfold number. induction (resolution F k) as [|j r IH]; [reflexivity|]. cbn [find first_own]. destruct (holds j) eqn:E; [rewrite E; reflexivity|exact IH].
Qed.
Lemma number_bound F holds dicts k : all_see_a_table F holds dicts -> (number F holds k < List.length dicts)%nat.
Proof.
  intros [A B]. destruct (A k) as (j & t & I & E). unfold number. destruct (find _ _) as [i|] eqn:G.
  - apply find_some in G. destruct G as [_ G]. destruct (holds i) eqn:H; [|discriminate]. exact (B _ _ H).
  - pose proof (find_none _ _ G j I) as G'. cbv beta in G'. rewrite E in G'. discriminate.
Qed.
Lemma wf_bind F holds dicts k t : all_see_a_table F holds dicts -> (t < List.length dicts)%nat -> all_see_a_table F (bind_own holds k t) dicts.
Proof.
  intros [A B] L. unfold bind_own. split.
  - intros i. destruct (A i) as (j & u & I & E). exists j. destruct (Nat.eqb j k); eauto.
  - intros j u. destruct (Nat.eqb j k); [intros [= <-]; exact L|apply B].
Qed.
Lemma wf_more F holds dicts more : all_see_a_table F holds dicts -> (List.length dicts <= List.length more)%nat -> all_see_a_table F holds more.
Proof. intros [A B] L. split; [exact A|]. intros j t E. specialize (B j t E). lia. Qed.
Lemma set_nth_nth {A} (v d : A) : forall l i t, (i < List.length l)%nat -> nth t (set_nth i v l) d = if Nat.eqb i t then v else nth t l d.
Proof.
  induction l as [|x l IH]; intros [|i] [|t] H; cbn [set_nth nth List.length Nat.eqb] in *; try lia; try reflexivity. apply IH. lia.
Qed.
Lemma set_nth_app {A} (v : A) : forall l i m, (i < List.length l)%nat -> set_nth i v l ++ m = set_nth i v (l ++ m).
Proof. induction l as [|x l IH]; intros [|i] m H; cbn [set_nth app List.length] in *; try lia; [reflexivity|]. rewrite IH by lia. reflexivity. Qed.

Section Run.
Variable P : prims.
Variable source : nat -> byte.
Variable F : family.
Lemma irun_app : forall h1 S h2, irun P source F S (h1 ++ h2) =
  (fst (irun P source F (fst (irun P source F S h1)) h2), snd (irun P source F S h1) ++ snd (irun P source F (fst (irun P source F S h1)) h2)).
Proof.
  induction h1 as [|o h1 IH]; intros S h2.
  - cbn [app irun fst snd]. destruct (irun P source F S h2); reflexivity.
  - cbn [app irun]. destruct (iexec P source F S o) as [S1 x]. rewrite IH. destruct (irun P source F S1 h1) as [S2 l]. reflexivity.
Qed.
Lemma irun_cons S o h : irun P source F S (o :: h) =
  (fst (irun P source F (fst (iexec P source F S o)) h), snd (iexec P source F S o) :: snd (irun P source F (fst (iexec P source F S o)) h)).
Proof. cbn [irun]. destruct (iexec P source F S o) as [S1 x]. cbn [fst snd]. destruct (irun P source F S1 h); reflexivity. Qed.
Lemma irun_length : forall h S, List.length (snd (irun P source F S h)) = List.length h.
Proof. induction h as [|o h IH]; intros S; [reflexivity|]. rewrite irun_cons. cbn [snd List.length]. rewrite IH. reflexivity. Qed.
Lemma itrace_nth holds dicts h1 o h2 : nth_error (itrace P source F holds dicts (h1 ++ o :: h2)) (List.length h1) =
  Some (snd (iexec P source F (fst (irun P source F (start holds dicts) h1)) o)).
Proof.
  unfold itrace. rewrite irun_app. cbn [snd]. rewrite nth_error_app2; rewrite irun_length; [|lia]. rewrite Nat.sub_diag, irun_cons. reflexivity.
Qed.
Lemma item_state S o : fst (iexec P source F S (Item o)) =
  {| own := own S;
     heap := match touched o with Some k => set_nth (place F S k) (c_networks (classes (fst (wexec P source (view F S) o)) k)) (heap S) | None => heap S end;
     pobjs := objs (fst (wexec P source (view F S) o)); pused := used (fst (wexec P source (view F S) o)) |}.
Proof. cbn [iexec]. destruct (wexec P source (view F S) o); reflexivity. Qed.
Lemma item_out S o : snd (iexec P source F S (Item o)) = snd (wexec P source (view F S) o).
Proof. cbn [iexec]. destruct (wexec P source (view F S) o); reflexivity. Qed.
Lemma item_length S o : List.length (heap (fst (iexec P source F S (Item o)))) = List.length (heap S).
Proof. rewrite item_state. cbn [heap]. destruct (touched o); [apply set_nth_length|reflexivity]. Qed.
Lemma item_own S o : own (fst (iexec P source F S (Item o))) = own S.
Proof. rewrite item_state. reflexivity. Qed.
Definition ok (S : process) : Prop := all_see_a_table F (own S) (heap S).
Lemma ok_step S o : ok S -> ok (fst (iexec P source F S o)).
Proof.
  intros W. unfold ok in *. destruct o as [o|k t|k j].
  - rewrite item_state. cbn [own heap]. eapply wf_more; [exact W|]. destruct (touched o); [rewrite set_nth_length|]; lia.
  - cbn [iexec fst own heap]. apply wf_bind; [|rewrite app_length; cbn; lia]. eapply wf_more; [exact W|]. rewrite app_length; lia.
  - cbn [iexec fst own heap]. apply wf_bind; [exact W|]. unfold place. rewrite <- number_first. apply number_bound, W.
Qed.
Lemma ok_run : forall h S, ok S -> ok (fst (irun P source F S h)).
Proof. induction h as [|o h IH]; intros S W; [exact W|]. rewrite irun_cons. apply IH, ok_step, W. Qed.
Lemma own_run : forall h S, own (fst (irun P source F S h)) = holds_after F (own S) (List.length (heap S)) h.
Proof.
  induction h as [|o h IH]; intros S; [reflexivity|]. rewrite irun_cons. cbn [fst]. rewrite IH. destruct o as [o|k t|k j].
  - rewrite item_state. cbn [own heap holds_after]. destruct (touched o); [rewrite set_nth_length|]; reflexivity.
  - cbn [iexec fst own heap holds_after]. rewrite app_length. cbn [List.length]. rewrite Nat.add_1_r. reflexivity.
  - cbn [iexec fst own heap holds_after]. unfold place. rewrite <- number_first. reflexivity.
Qed.
Lemma item_entry S o t m more : ok S ->
  dict_get m (nth t (heap (fst (iexec P source F S (Item o))) ++ more) []) = entry (as_coin (heap S ++ more)) [on_dict (number F (own S)) o] t m.
Proof.
  intros W. rewrite item_state. cbn [heap]. pose proof (fun k => entry_step P source (view F S) o k m) as E.
  assert (K : forall k, (place F S k < List.length (heap S))%nat) by (intros k; unfold place; rewrite <- number_first; apply number_bound, W).
  assert (Kn : forall k, number F (own S) k = place F S k) by (intros k; apply number_first).
  assert (V : forall k, c_networks (classes (view F S) k) = nth (place F S k) (heap S ++ more) []) by (intros k; cbn [view classes c_networks]; rewrite app_nth1 by apply K; reflexivity).
  assert (T : forall k v, nth t (set_nth (place F S k) v (heap S) ++ more) [] = if Nat.eqb (place F S k) t then v else nth t (heap S ++ more) []).
  { intros k v. rewrite set_nth_app by apply K. apply set_nth_nth. rewrite app_length. specialize (K k). lia. }
  destruct o; cbn [touched on_dict]; try reflexivity; rewrite T; specialize (E k); unfold entry in *; cbn [fold_left] in *; rewrite Nat.eqb_refl in E; rewrite Kn;
    cbn [as_coin c_networks]; (destruct (Nat.eqb (place F S k) t) eqn:N; [|reflexivity]); apply Nat.eqb_eq in N; subst t; rewrite E, V; reflexivity.
Qed.
Lemma item_names S o t more : ok S ->
  List.map fst (nth t (heap (fst (iexec P source F S (Item o))) ++ more) []) = names (as_coin (heap S ++ more)) [on_dict (number F (own S)) o] t.
Proof.
  intros W. rewrite item_state. cbn [heap]. pose proof (fun k => names_step P source (view F S) o k) as E.
  assert (K : forall k, (place F S k < List.length (heap S))%nat) by (intros k; unfold place; rewrite <- number_first; apply number_bound, W).
  assert (Kn : forall k, number F (own S) k = place F S k) by (intros k; apply number_first).
  assert (V : forall k, c_networks (classes (view F S) k) = nth (place F S k) (heap S ++ more) []) by (intros k; cbn [view classes c_networks]; rewrite app_nth1 by apply K; reflexivity).
  assert (T : forall k v, nth t (set_nth (place F S k) v (heap S) ++ more) [] = if Nat.eqb (place F S k) t then v else nth t (heap S ++ more) []).
  { intros k v. rewrite set_nth_app by apply K. apply set_nth_nth. rewrite app_length. specialize (K k). lia. }
  destruct o; cbn [touched on_dict]; try reflexivity; rewrite T; specialize (E k); unfold names in *; cbn [fold_left] in *; rewrite ?Nat.eqb_refl in E; rewrite ?Kn;
    cbn [as_coin c_networks]; (destruct (Nat.eqb (place F S k) t) eqn:N; [|reflexivity]); apply Nat.eqb_eq in N; subst t; rewrite E, V; reflexivity.
Qed.
Lemma entry_heap : forall h S t m, ok S ->
  dict_get m (nth t (heap (fst (irun P source F S h))) []) = entry (as_coin (heap S ++ made h)) (on_dicts F (own S) (List.length (heap S)) h) t m.
Proof.
  induction h as [|o h IH]; intros S t m W; [cbn [irun fst made on_dicts]; rewrite app_nil_r; reflexivity|].
  rewrite irun_cons. cbn [fst]. rewrite IH by (apply ok_step, W). destruct o as [o|k d|k j]; cbn [made on_dicts].
  - pose proof (item_entry S o t m (made h) W) as E. rewrite item_length, item_own. unfold entry at 1. cbn [as_coin c_networks]. rewrite E. reflexivity.
  - cbn [iexec fst own heap]. rewrite <- app_assoc, app_length. cbn [app List.length]. rewrite Nat.add_1_r. reflexivity.
  - cbn [iexec fst own heap]. unfold place. rewrite <- number_first. reflexivity.
Qed.
Lemma names_heap : forall h S t, ok S ->
  List.map fst (nth t (heap (fst (irun P source F S h))) []) = names (as_coin (heap S ++ made h)) (on_dicts F (own S) (List.length (heap S)) h) t.
Proof.
  induction h as [|o h IH]; intros S t W; [cbn [irun fst made on_dicts]; rewrite app_nil_r; reflexivity|].
  rewrite irun_cons. cbn [fst]. rewrite IH by (apply ok_step, W). destruct o as [o|k d|k j]; cbn [made on_dicts].
  - pose proof (item_names S o t (made h) W) as E. rewrite item_length, item_own. unfold names at 1. cbn [as_coin c_networks]. rewrite E. reflexivity.
  - cbn [iexec fst own heap]. rewrite <- app_assoc, app_length. cbn [app List.length]. rewrite Nat.add_1_r. reflexivity.
  - cbn [iexec fst own heap]. unfold place. rewrite <- number_first. reflexivity.
Qed.
Lemma seen_entry_run holds dicts h k m : all_see_a_table F holds dicts ->
  dict_get m (c_networks (classes (view F (fst (irun P source F (start holds dicts) h))) k)) = seen_entry F holds dicts h k m.
Proof.
  intros W. cbn [view classes c_networks]. rewrite entry_heap by exact W. unfold seen_entry, place. rewrite <- number_first, own_run. reflexivity.
Qed.
Lemma seen_names_run holds dicts h k : all_see_a_table F holds dicts ->
  List.map fst (c_networks (classes (view F (fst (irun P source F (start holds dicts) h))) k)) = seen_names F holds dicts h k.
Proof.
  intros W. cbn [view classes c_networks]. rewrite names_heap by exact W. unfold seen_names, place. rewrite <- number_first, own_run. reflexivity.
Qed.
Lemma iobjs_length : forall h S, List.length (pobjs (fst (irun P source F S h))) = (List.length (pobjs S) + makes (items h))%nat.
Proof.
  induction h as [|o h IH]; intros S; [cbn; lia|]. rewrite irun_cons. cbn [fst]. rewrite IH. destruct o as [o|k t|k j]; [|reflexivity..].
  rewrite item_state. cbn [pobjs items]. pose proof (objs_length P source [o] (view F S)) as E. rewrite wrun_cons in E. cbn [fst wrun] in E. rewrite E.
  cbn [view objs]. destruct o; cbn [makes]; lia.
Qed.
Lemma iattrs_run i : forall h S ob, nth_error (pobjs S) i = Some (Ok ob) -> nth_error (pobjs (fst (irun P source F S h))) i = Some (Ok (attrs i (items h) ob)).
Proof.
  induction h as [|o h IH]; intros S ob H; [destruct ob; exact H|]. rewrite irun_cons. cbn [fst]. destruct o as [o|k t|k j]; cbn [items].
  - rewrite (IH _ (attrs i [o] ob)); [reflexivity|]. rewrite item_state. cbn [pobjs]. apply attrs_step. exact H.
  - apply IH. exact H.
  - apply IH. exact H.
Qed.
Lemma seen_entry_names holds dicts h k m : all_see_a_table F holds dicts -> seen_entry F holds dicts h k m <> None <-> In m (seen_names F holds dicts h k).
Proof.
  intros W. rewrite <- (seen_entry_run holds dicts h k m W), <- (seen_names_run holds dicts h k W). destruct (dict_get m _) eqn:D.
  - split; [|discriminate]. intros _. exact (dict_get_key _ _ _ D).
  - split; [congruence|]. intros I. apply dict_get_none in D. contradiction.
Qed.
Lemma iobject_at holds dicts h1 k n0 h2 : all_see_a_table F holds dicts -> seen_entry F holds dicts h1 k n0 <> None ->
  exists ob, nth_error (pobjs (fst (irun P source F (start holds dicts) (h1 ++ Item (Make k n0) :: h2)))) (makes (items h1)) = Some (Ok ob) /\
    o_class ob = coin_attr (makes (items h1)) (items h2) k /\ o_networks ob = networks_attr (makes (items h1)) (items h2) (seen_names F holds dicts h1 k) /\
    o_network ob = network_attr (makes (items h1)) (items h2) n0.
Proof.
  intros W H. rewrite irun_app, irun_cons. cbn [fst]. set (S := fst (irun P source F (start holds dicts) h1)).
  apply (seen_entry_names _ _ _ _ _ W) in H. apply str_in_spec in H.
  assert (N : List.map fst (c_networks (classes (view F S) k)) = seen_names F holds dicts h1 k) by apply (seen_names_run _ _ _ _ W).
  set (ob := {| o_class := k; o_networks := seen_names F holds dicts h1 k; o_network := n0;
    o_alphabet := match alphabet_of F k with Some (x :: a) => x :: a | _ => Bitcoin_ALPHABET end |}).
  exists (attrs (makes (items h1)) (items h2) ob). split; [|repeat split]. apply iattrs_run. rewrite item_state. cbn [wexec fst objs pobjs].
  assert (L : List.length (pobjs S) = makes (items h1)) by (subst S; rewrite iobjs_length; reflexivity).
  cbn [view objs]. rewrite nth_error_app2, L, Nat.sub_diag by lia. cbn [nth_error]. rewrite init_names, N, H. reflexivity.
Qed.
End Run.
(** A method call in any world, on an object with given attributes *)
Lemma call_refused P source W o i ob known : object_of o = Some i -> nth_error (objs W) i = Some (Ok ob) -> o_networks ob = known ->
  ~ In (chosen (network_arg o) (o_network ob)) known ->
  exists r, snd (wexec P source W (Call o)) = ([], WCall r) /\ raised r = Some (wrong_network known).
Proof.
  intros HO O <- HN. apply snapshot_nth in O. rewrite call_snd.
  set (self := {| s_cryptocurrency := classes W (o_class ob); s_networks := o_networks ob; s_network := o_network ob; s_alphabet := o_alphabet ob |}) in O.
  assert (S : select_network self (network_arg o) = Raise (wrong_network (o_networks ob))) by (apply (select_wrong self); exact HN).
  destruct o as [c n|pw l q salt|j w p n|j c t seed n|j p c n d|j e p n d]; cbn in HO; try discriminate; assert (j = i) by congruence; subst j; cbn [network_arg] in S; cbn [exec]; unfold with_object; rewrite O.
  - cbn [fst snd]. eexists. split; [reflexivity|]. rewrite (encrypt_no_net _ _ _ _ _ _ S). reflexivity.
  - rewrite S. cbn [fst snd]. eexists. split; [reflexivity|]. rewrite (create_no_net _ _ _ _ _ _ _ _ S). reflexivity.
  - cbn [fst snd]. eexists. split; [reflexivity|]. rewrite (confirm_no_net _ _ _ _ _ _ _ S). reflexivity.
  - cbn [fst snd]. eexists. split; [reflexivity|]. rewrite (decrypt_no_net _ _ _ _ _ _ _ S). reflexivity.
Qed.
Lemma call_used P source W o i ob w a : prims_ok P -> object_of o = Some i -> nth_error (objs W) i = Some (Ok ob) ->
  let m := chosen (network_arg o) (o_network ob) in
  In m (o_networks ob) -> dict_get m (c_networks (classes W (o_class ob))) = Some (w, a) -> 0 <= w -> 0 <= a ->
  exists b r, snd (wexec P source W (Call o)) = (b, WCall r) /\ result_with P (fun j => source (used W + j)%nat) m w a o = Some (b, r).
Proof.
  intros HP HO O m HI HG Hw Ha. apply snapshot_nth in O. rewrite call_snd.
  set (self := {| s_cryptocurrency := classes W (o_class ob); s_networks := o_networks ob; s_network := o_network ob; s_alphabet := o_alphabet ob |}) in O.
  assert (Em : m = chosen (network_arg o) (s_network self)) by reflexivity.
  assert (N : net_sel self (network_arg o) m w a).
  { constructor; trivial. rewrite Em. apply select_chosen. exact HI. }
  rewrite (result_with_eq _ _ _ _ _ _ _ HO).
  set (self' := {| s_cryptocurrency := one_entry m w a; s_networks := [m]; s_network := m; s_alphabet := Bitcoin_ALPHABET |}).
  assert (N' : net_sel self' (network_arg o) m w a).
  { assert (C : chosen (network_arg o) m = m) by (apply one_chosen; eexists; symmetry; exact Em). constructor; trivial.
    - rewrite (select_chosen self'); cbn [self' s_network s_networks]; rewrite C; [reflexivity|left; reflexivity].
    - cbn [self' s_cryptocurrency one_entry c_networks dict_get]. rewrite (proj2 (str_eqb_spec m m) eq_refl). reflexivity. }
  clearbody m. clear Em HI HG.
  destruct o as [c n|pw l q salt|j wf p n|j c t seed n|j p c n d|j e p n d]; cbn in HO; try discriminate; assert (j = i) by congruence; subst j; cbn [network_arg] in N, N'; cbn [exec on_first]; unfold with_object; rewrite O; cbn [objects nth_error].
  - cbn [fst snd]. eexists _, _. split; [reflexivity|]. rewrite (encrypt_eq P HP _ _ _ _ _ _ _ N), (encrypt_eq P HP _ _ _ _ _ _ _ N'). reflexivity.
  - rewrite (ns_sel _ _ _ _ _ N), (ns_sel _ _ _ _ _ N'). destruct (truthy seed); cbn [fst snd].
    + eexists _, _. split; [reflexivity|]. rewrite (create_eq P HP _ _ _ _ _ _ _ _ _ N), (create_eq P HP _ _ _ _ _ _ _ _ _ N'). reflexivity.
    + eexists _, _. split; [reflexivity|]. unfold urandom. cbn [taken snapshot]. rewrite <- urandom_shift.
      rewrite (create_eq P HP _ _ _ _ _ _ _ _ _ N), (create_eq P HP _ _ _ _ _ _ _ _ _ N'). reflexivity.
  - cbn [fst snd]. eexists _, _. split; [reflexivity|]. rewrite (confirm_prefixes P _ _ _ _ _ _ _ _ _ _ _ _ HP N N'). reflexivity.
  - cbn [fst snd]. eexists _, _. split; [reflexivity|]. rewrite (decrypt_prefixes P _ _ _ _ _ _ _ _ _ _ _ HP N N'). reflexivity.
Qed.
Lemma call_missing P source W o i ob : object_of o = Some i -> nth_error (objs W) i = Some (Ok ob) ->
  let m := chosen (network_arg o) (o_network ob) in
  In m (o_networks ob) -> dict_get m (c_networks (classes W (o_class ob))) = None ->
  exists b r, snd (wexec P source W (Call o)) = (b, WCall r) /\
    match o with Encrypt _ _ _ _ => raised r = Some (Builtin KeyError) | _ => True end /\
    forall w a, exists r', result_with P (fun j => source (used W + j)%nat) m w a o = Some (b, r') /\
      (raised r = Some (Builtin KeyError) \/ exists e, raised r = Some e /\ raised r' = Some e).
Proof.
  intros HO O m HI HG. apply snapshot_nth in O. rewrite call_snd.
  set (self := {| s_cryptocurrency := classes W (o_class ob); s_networks := o_networks ob; s_network := o_network ob; s_alphabet := o_alphabet ob |}) in O.
  assert (Em : m = chosen (network_arg o) (s_network self)) by reflexivity.
  assert (S : select_network self (network_arg o) = Ok m).
  { rewrite Em. apply select_chosen. exact HI. }
  assert (HM : dict_get m (c_networks (s_cryptocurrency self)) = None) by exact HG.
  assert (RW : forall w a, let self' := {| s_cryptocurrency := one_entry m w a; s_networks := [m]; s_network := m; s_alphabet := Bitcoin_ALPHABET |} in
     result_with P (fun j => source (used W + j)%nat) m w a o = Some (snd (exec P (fun j => source (used W + j)%nat) {| objects := [Ok self']; taken := 0 |} (on_first o))) /\
     select_network self' (network_arg o) = Ok m).
  { intros w a self'. split; [apply (result_with_eq _ _ _ _ _ _ _ HO)|].
    assert (C : chosen (network_arg o) m = m) by (apply one_chosen; eexists; symmetry; exact Em).
    rewrite (select_chosen self'); cbn [self' s_network s_networks]; rewrite C; [reflexivity|left; reflexivity]. }
  clearbody m. clear Em HI HG.
  destruct o as [c n|pw l q salt|j wf p n|j c t seed n|j p c n d|j e p n d]; cbn in HO; try discriminate; assert (j = i) by congruence; subst j; cbn [network_arg] in S, RW;
    cbn [exec on_first] in *; unfold with_object in *; rewrite O; cbn [objects nth_error] in RW.
  - cbn [fst snd]. eexists _, _. split; [reflexivity|]. rewrite (no_encrypt _ _ _ HM _ _ _ S). split; [reflexivity|].
    intros w a. destruct (RW w a) as [-> _]. cbn [snd]. eexists. split; [reflexivity|]. left. reflexivity.
  - rewrite S. destruct (truthy seed) eqn:T; cbn [fst snd].
    + eexists _, _. split; [reflexivity|]. split; [exact I|]. intros w a. destruct (RW w a) as [-> S']. rewrite S'. cbn [snd]. eexists. split; [reflexivity|].
      apply (cut_raised _ _ OCreate); [reflexivity|]. apply (cut_create P self _ m HM); assumption.
    + eexists _, _. split; [reflexivity|]. split; [exact I|]. intros w a. destruct (RW w a) as [-> S']. rewrite S'. cbn [snd].
      unfold urandom. cbn [taken snapshot]. rewrite <- urandom_shift. eexists. split; [reflexivity|].
      apply (cut_raised _ _ OCreate); [reflexivity|]. apply (cut_create P self _ m HM); assumption.
  - cbn [fst snd]. eexists _, _. split; [reflexivity|]. split; [exact I|]. intros w a. destruct (RW w a) as [-> S']. cbn [snd]. eexists. split; [reflexivity|].
    apply (cut_raised _ _ OConfirm); [reflexivity|]. apply (cut_confirm P self _ m HM); assumption.
  - cbn [fst snd]. eexists _, _. split; [reflexivity|]. split; [exact I|]. intros w a. destruct (RW w a) as [-> S']. cbn [snd]. eexists. split; [reflexivity|].
    apply (cut_raised _ _ ODecrypt); [reflexivity|]. apply (cut_decrypt P self _ m HM); assumption.
Qed.

(** ** C94 *)
(** The constructor accepts the names in the table the class then sees. *)
Theorem C94_constructor : forall P source F holds dicts h1 k n0 h2, all_see_a_table F holds dicts ->
  nth_error (itrace P source F holds dicts (h1 ++ Item (Make k n0) :: h2)) (List.length h1) =
  Some ([], WCall (ONew match seen_entry F holds dicts h1 k n0 with Some _ => None | None => Some (wrong_network (seen_names F holds dicts h1 k)) end)) /\
  (forall m, In m (seen_names F holds dicts h1 k) <-> seen_entry F holds dicts h1 k m <> None).
Proof.
  intros P source F holds dicts h1 k n0 h2 W. split; [|intros m; symmetry; apply (seen_entry_names P source F _ _ _ _ _ W)]. rewrite itrace_nth, item_out.
  set (S := fst (irun P source F (start holds dicts) h1)).
  assert (N : List.map fst (c_networks (classes (view F S) k)) = seen_names F holds dicts h1 k) by apply (seen_names_run _ _ _ _ _ _ _ W).
  assert (E : dict_get n0 (c_networks (classes (view F S) k)) = seen_entry F holds dicts h1 k n0) by apply (seen_entry_run _ _ _ _ _ _ _ _ W).
  cbn [wexec snd]. rewrite init_names. rewrite <- E, <- N. destruct (dict_get n0 _) eqn:D.
  - rewrite (proj2 (str_in_spec n0 _) (dict_get_key _ _ _ D)). reflexivity.
  - apply dict_get_none in D. destruct (str_in n0 _) eqn:I; [apply str_in_spec in I; contradiction|]. unfold wrong_network.
    destruct (c_networks (classes (view F S) k)); reflexivity.
Qed.
(** An object keeps the names it found then, whatever table its class sees later; *)
Theorem C94_refused : forall P source F holds dicts h1 k n0 h2 o h3, all_see_a_table F holds dicts ->
  seen_entry F holds dicts h1 k n0 <> None -> object_of o = Some (makes (items h1)) ->
  let i := makes (items h1) in let h := h1 ++ Item (Make k n0) :: h2 in
  let known := networks_attr i (items h2) (seen_names F holds dicts h1 k) in
  ~ In (chosen (network_arg o) (network_attr i (items h2) n0)) known ->
  exists r, nth_error (itrace P source F holds dicts (h ++ Item (Call o) :: h3)) (List.length h) = Some ([], WCall r) /\ raised r = Some (wrong_network known).
Proof.
  intros P source F holds dicts h1 k n0 h2 o h3 W HE HO i h known HN. rewrite itrace_nth, item_out. destruct (iobject_at P source F holds dicts h1 k n0 h2 W HE) as (ob & O & _ & E2 & E3).
  fold i h in O. set (S := fst (irun P source F (start holds dicts) h)) in *.
  destruct (call_refused P source (view F S) o i ob known HO O E2) as (r & E & R); [rewrite E3; exact HN|]. exists r. rewrite E. auto.
Qed.
(** and a known name is looked up in the table its class sees when the method is called. *)
Theorem C94_used : forall P source F holds dicts h1 k n0 h2 o h3 w a, prims_ok P -> all_see_a_table F holds dicts ->
  seen_entry F holds dicts h1 k n0 <> None -> object_of o = Some (makes (items h1)) ->
  let i := makes (items h1) in let h := h1 ++ Item (Make k n0) :: h2 in
  let m := chosen (network_arg o) (network_attr i (items h2) n0) in
  In m (networks_attr i (items h2) (seen_names F holds dicts h1 k)) ->
  seen_entry F holds dicts h (coin_attr i (items h2) k) m = Some (w, a) -> 0 <= w -> 0 <= a ->
  exists d b r, nth_error (itrace P source F holds dicts (h ++ Item (Call o) :: h3)) (List.length h) = Some (b, WCall r) /\
                result_with P (fun j => source (d + j)%nat) m w a o = Some (b, r).
Proof.
  intros P source F holds dicts h1 k n0 h2 o h3 w a HP W HE HO i h m HI HG Hw Ha. rewrite itrace_nth, item_out. destruct (iobject_at P source F holds dicts h1 k n0 h2 W HE) as (ob & O & E1 & E2 & E3).
  fold i h in O, E1, E2, E3. rewrite <- (seen_entry_run P source F _ _ h _ m W) in HG. set (S := fst (irun P source F (start holds dicts) h)) in *.
  exists (used (view F S)). unfold m. rewrite <- E3. destruct (call_used P source (view F S) o i ob w a HP HO O) as (b & r & E & R); trivial.
  - rewrite E3, E2. exact HI.
  - rewrite E3, E1. exact HG.
  - exists b, r. rewrite E. auto.
Qed.
(** A known name that is not in that table: KeyError, or an exception raised for any prefixes *)
Theorem C94_missing : forall P source F holds dicts h1 k n0 h2 o h3, all_see_a_table F holds dicts ->
  seen_entry F holds dicts h1 k n0 <> None -> object_of o = Some (makes (items h1)) ->
  let i := makes (items h1) in let h := h1 ++ Item (Make k n0) :: h2 in
  let m := chosen (network_arg o) (network_attr i (items h2) n0) in
  In m (networks_attr i (items h2) (seen_names F holds dicts h1 k)) ->
  seen_entry F holds dicts h (coin_attr i (items h2) k) m = None ->
  exists d b r, nth_error (itrace P source F holds dicts (h ++ Item (Call o) :: h3)) (List.length h) = Some (b, WCall r) /\
    match o with Encrypt _ _ _ _ => raised r = Some (Builtin KeyError) | _ => True end /\
    forall w a, exists r', result_with P (fun j => source (d + j)%nat) m w a o = Some (b, r') /\
      (raised r = Some (Builtin KeyError) \/ exists e, raised r = Some e /\ raised r' = Some e).
Proof.
  intros P source F holds dicts h1 k n0 h2 o h3 W HE HO i h m HI HG. rewrite itrace_nth, item_out. destruct (iobject_at P source F holds dicts h1 k n0 h2 W HE) as (ob & O & E1 & E2 & E3).
  fold i h in O, E1, E2, E3. rewrite <- (seen_entry_run P source F _ _ h _ m W) in HG. set (S := fst (irun P source F (start holds dicts) h)) in *.
  exists (used (view F S)). unfold m. rewrite <- E3. destruct (call_missing P source (view F S) o i ob HO O) as (b & r & E & R).
  - rewrite E3, E2. exact HI.
  - rewrite E3, E1. exact HG.
  - exists b, r. rewrite E. auto.
Qed.
(** Statements on entries raise KeyError exactly if the class sees no such entry; assignments of tables never raise. *)
Theorem C94_statement : forall P source F holds dicts h1 h2 k m, all_see_a_table F holds dicts ->
  (forall t, nth_error (itrace P source F holds dicts (h1 ++ NewTable k t :: h2)) (List.length h1) = Some ([], WStatement None)) /\
  (forall j, nth_error (itrace P source F holds dicts (h1 ++ ShareTable k j :: h2)) (List.length h1) = Some ([], WStatement None)) /\
  (forall w a, nth_error (itrace P source F holds dicts (h1 ++ Item (Put k m w a) :: h2)) (List.length h1) = Some ([], WStatement None)) /\
  forall o, o = Del k m \/ (exists w, o = PutWif k m w) \/ (exists a, o = PutAddress k m a) ->
    nth_error (itrace P source F holds dicts (h1 ++ Item o :: h2)) (List.length h1) =
      Some ([], WStatement match seen_entry F holds dicts h1 k m with Some _ => None | None => Some (Builtin KeyError) end).
Proof.
  intros P source F holds dicts h1 h2 k m W. repeat (split; [intros; rewrite itrace_nth; reflexivity|]).
  intros o H. rewrite itrace_nth, item_out. rewrite <- (seen_entry_run P source F holds dicts h1 k m W).
  set (V := view F (fst (irun P source F (start holds dicts) h1))).
  destruct H as [-> | [[w ->] | [a ->]]]; cbn [wexec]; unfold at_item; destruct (dict_get m _); reflexivity.
Qed.
(** A statement on an entry may be made through any class that sees the same table: the rest of the process cannot tell. *)
Definition same_statement (k j : nat) (o o' : wop) : Prop :=
  (exists m w a, o = Put k m w a /\ o' = Put j m w a) \/ (exists m w, o = PutWif k m w /\ o' = PutWif j m w) \/
  (exists m a, o = PutAddress k m a /\ o' = PutAddress j m a) \/ (exists m, o = Del k m /\ o' = Del j m).
Theorem C94_either : forall P source F holds dicts h1 h2 k j o o', same_statement k j o o' ->
  number F (holds_after F holds (List.length dicts) h1) k = number F (holds_after F holds (List.length dicts) h1) j ->
  itrace P source F holds dicts (h1 ++ Item o :: h2) = itrace P source F holds dicts (h1 ++ Item o' :: h2).
Proof.
  intros P source F holds dicts h1 h2 k j o o' H N. unfold itrace. rewrite !irun_app, !irun_cons. cbn [snd]. set (S := fst (irun P source F (start holds dicts) h1)).
  assert (E : place F S k = place F S j) by (unfold place, S; rewrite own_run, <- !number_first; exact N).
  assert (C : c_networks (classes (view F S) k) = c_networks (classes (view F S) j)) by (cbn [view classes c_networks]; rewrite E; reflexivity).
  cut (iexec P source F S (Item o) = iexec P source F S (Item o')); [intros ->; reflexivity|].
  destruct H as [(m & w & a & -> & ->)|[(m & w & -> & ->)|[(m & a & -> & ->)|(m & -> & ->)]]]; cbn [iexec wexec touched].
  - cbn [set_table classes objs used]. rewrite !Nat.eqb_refl. cbn [with_table c_networks]. rewrite C, E. reflexivity.
  - unfold at_item. rewrite C, E. destruct (dict_get m _); cbn [set_table classes objs used]; rewrite ?Nat.eqb_refl; cbn [with_table c_networks]; rewrite ?C; reflexivity.
  - unfold at_item. rewrite C, E. destruct (dict_get m _); cbn [set_table classes objs used]; rewrite ?Nat.eqb_refl; cbn [with_table c_networks]; rewrite ?C; reflexivity.
  - unfold at_item. rewrite C, E. destruct (dict_get m _); cbn [set_table classes objs used]; rewrite ?Nat.eqb_refl; cbn [with_table c_networks]; rewrite ?C; reflexivity.
Qed.
(** ** A subclass without a table of its own is its base class *)
Definition put_for (k j i : nat) : nat := if Nat.eqb i k then j else i.
(** The same operation with class [j] in the place of class [k] *)
Definition wop_for (k j : nat) (o : wop) : wop :=
  match o with
  | Make i n => Make (put_for k j i) n
  | Put i m w a => Put (put_for k j i) m w a
  | PutWif i m w => PutWif (put_for k j i) m w
  | PutAddress i m a => PutAddress (put_for k j i) m a
  | Del i m => Del (put_for k j i) m
  | SetCoin x i => SetCoin x (put_for k j i)
  | o => o
  end.
Definition iop_for (k j : nat) (o : iop) : iop :=
  match o with Item o => Item (wop_for k j o) | ShareTable i l => ShareTable i (put_for k j l) | NewTable i t => NewTable i t end.
Definition gives_table (k : nat) (o : iop) : Prop := match o with NewTable i _ | ShareTable i _ => i = k | Item _ => False end.

Definition obj_for (k j : nat) (r : res object) : res object :=
  match r with
  | Ok o => Ok {| o_class := put_for k j (o_class o); o_networks := o_networks o; o_network := o_network o; o_alphabet := o_alphabet o |}
  | Raise e => Raise e
  end.
Lemma set_nth_map {A B} (f : A -> B) v : forall l i, set_nth i (f v) (List.map f l) = List.map f (set_nth i v l).
Proof. induction l as [|x l IH]; intros [|i]; cbn [set_nth List.map]; try reflexivity. rewrite IH. reflexivity. Qed.
Section Base.
Variable P : prims.
Variable source : nat -> byte.
Variable F : family.
Variables k j : nat.
Hypothesis HR : resolution F k = k :: resolution F j.
Hypothesis HA : alphabet_of F k = alphabet_of F j.
Definition alike (S S' : process) : Prop :=
  own S' = own S /\ heap S' = heap S /\ pused S' = pused S /\ pobjs S' = List.map (obj_for k j) (pobjs S) /\ own S k = None.
Lemma alike_place S S' i : alike S S' -> place F S' (put_for k j i) = place F S i.
Proof.
  intros (E1 & _ & _ & _ & N). unfold place, put_for. rewrite E1. destruct (Nat.eqb i k) eqn:E; [|reflexivity]. apply Nat.eqb_eq in E. subst i.
  rewrite HR. cbn [first_own]. rewrite N. reflexivity.
Qed.
Lemma alike_class S S' i : alike S S' -> classes (view F S') (put_for k j i) = classes (view F S) i.
Proof.
  intros A. cbn [view classes]. rewrite (alike_place S S' i A). destruct A as (_ & -> & _). f_equal. unfold put_for.
  destruct (Nat.eqb i k) eqn:E; [|reflexivity]. apply Nat.eqb_eq in E. subst i. symmetry. exact HA.
Qed.
Lemma alike_snapshot S S' : alike S S' -> snapshot (view F S') = snapshot (view F S).
Proof.
  intros A. unfold snapshot. cbn [view objs used]. destruct A as (E1 & E2 & E3 & E4 & N) eqn:EA. rewrite E3, E4, map_map. f_equal. apply map_ext. intros [o|e]; [|reflexivity].
  cbn [obj_for now o_class o_networks o_network o_alphabet]. rewrite (alike_class S S' (o_class o) A). reflexivity.
Qed.
Lemma alike_objects S S' i f f' : alike S S' -> (forall o, obj_for k j (Ok (f o)) = Ok (f' match obj_for k j (Ok o) with Ok x => x | Raise _ => o end)) ->
  snd (set_object (view F S') i f') = snd (set_object (view F S) i f) /\
  objs (fst (set_object (view F S') i f')) = List.map (obj_for k j) (objs (fst (set_object (view F S) i f))) /\
  used (fst (set_object (view F S') i f')) = used (fst (set_object (view F S) i f)).
Proof.
  intros (E1 & E2 & E3 & E4 & N) Hf. unfold set_object. cbn [view objs]. rewrite E4, nth_error_map. destruct (nth_error (pobjs S) i) as [[o|e]|]; cbn [option_map fst snd objs used].
  - cbn [obj_for]. repeat split; [|exact E3]. rewrite <- set_nth_map. f_equal. rewrite Hf. reflexivity.
  - repeat split; [exact E4|exact E3].
  - repeat split; [exact E4|exact E3].
Qed.
Lemma alike_step S S' o : alike S S' -> ~ gives_table k o ->
  alike (fst (iexec P source F S o)) (fst (iexec P source F S' (iop_for k j o))) /\
  snd (iexec P source F S' (iop_for k j o)) = snd (iexec P source F S o).
Proof.
  intros A G. assert (A' := A). destruct A' as (E1 & E2 & E3 & E4 & N). destruct o as [o|i t|i l]; cbn [iop_for].
  - rewrite !item_out, !item_state. unfold alike. cbn [own heap pused pobjs].
    cut (snd (wexec P source (view F S') (wop_for k j o)) = snd (wexec P source (view F S) o) /\
         objs (fst (wexec P source (view F S') (wop_for k j o))) = List.map (obj_for k j) (objs (fst (wexec P source (view F S) o))) /\
         used (fst (wexec P source (view F S') (wop_for k j o))) = used (fst (wexec P source (view F S) o)) /\
         match touched (wop_for k j o) with Some i => set_nth (place F S' i) (c_networks (classes (fst (wexec P source (view F S') (wop_for k j o))) i)) (heap S') | None => heap S' end =
         match touched o with Some i => set_nth (place F S i) (c_networks (classes (fst (wexec P source (view F S) o)) i)) (heap S) | None => heap S end).
    { intros (H1 & H2 & H3 & H4). split; [|exact H1]. split; [exact E1|]. split; [exact H4|]. split; [exact H3|]. split; [exact H2|exact N]. }
    assert (AT : forall i m f f', (forall v, f' v = f v) ->
      snd (at_item (view F S') (put_for k j i) m f') = snd (at_item (view F S) i m f) /\
      objs (fst (at_item (view F S') (put_for k j i) m f')) = List.map (obj_for k j) (objs (fst (at_item (view F S) i m f))) /\
      used (fst (at_item (view F S') (put_for k j i) m f')) = used (fst (at_item (view F S) i m f)) /\
      set_nth (place F S' (put_for k j i)) (c_networks (classes (fst (at_item (view F S') (put_for k j i) m f')) (put_for k j i))) (heap S') =
      set_nth (place F S i) (c_networks (classes (fst (at_item (view F S) i m f)) i)) (heap S)).
    { intros i m f f' Hf. rewrite (alike_place S S' i A), E2, !at_item_get. rewrite !Nat.eqb_refl. rewrite (alike_class S S' i A).
      unfold at_item. rewrite (alike_class S S' i A). destruct (dict_get m _) as [v|]; cbn [fst snd objs used set_table view]; [rewrite Hf|]; auto. }
    destruct o as [i n|o|i m w a|i m w|i m a|i m|x n|x l|x i]; cbn [wop_for touched wexec].
    + cbn [fst snd objs used view]. rewrite E4, map_app, E3. cbn [List.map].
      change (classes (view F S') (put_for k j i)) with (classes (view F S') (put_for k j i)). rewrite <- (alike_class S S' i A).
      cbn [view classes]. repeat split; trivial; destruct (bip38_init _ n); try reflexivity. 
    + rewrite (alike_snapshot S S' A). destruct (exec P source (snapshot (view F S)) o) as [s x]. cbn [fst snd objs used view]. auto.
    + cbn [fst snd]. split; [reflexivity|]. split; [exact E4|]. split; [exact E3|]. rewrite (alike_place S S' i A), E2, !set_table_get, !Nat.eqb_refl, (alike_class S S' i A). reflexivity.
    + apply AT. intros v. rewrite (alike_class S S' i A). reflexivity.
    + apply AT. intros v. rewrite (alike_class S S' i A). reflexivity.
    + apply AT. intros v. rewrite (alike_class S S' i A). reflexivity.
    + rewrite E2. destruct (alike_objects S S' x (fun o => {| o_class := o_class o; o_networks := o_networks o; o_network := n; o_alphabet := o_alphabet o |}) (fun o => {| o_class := o_class o; o_networks := o_networks o; o_network := n; o_alphabet := o_alphabet o |}) A) as (H1 & H2 & H3); [reflexivity|]. auto.
    + rewrite E2. destruct (alike_objects S S' x (fun o => {| o_class := o_class o; o_networks := l; o_network := o_network o; o_alphabet := o_alphabet o |}) (fun o => {| o_class := o_class o; o_networks := l; o_network := o_network o; o_alphabet := o_alphabet o |}) A) as (H1 & H2 & H3); [reflexivity|]. auto.
    + rewrite E2. destruct (alike_objects S S' x (fun o => {| o_class := i; o_networks := o_networks o; o_network := o_network o; o_alphabet := o_alphabet o |}) (fun o => {| o_class := put_for k j i; o_networks := o_networks o; o_network := o_network o; o_alphabet := o_alphabet o |}) A) as (H1 & H2 & H3); [reflexivity|]. auto.
  - cbn [gives_table] in G. cbn [iexec fst snd]. unfold alike. cbn [own heap pused pobjs]. rewrite E1, E2, E3. repeat split; [exact E4|].
    unfold bind_own. destruct (Nat.eqb k i) eqn:E; [apply Nat.eqb_eq in E; congruence|exact N].
  - cbn [gives_table] in G. cbn [iexec fst snd]. unfold alike. cbn [own heap pused pobjs]. rewrite (alike_place S S' l A), E1, E2, E3. repeat split; [exact E4|].
    unfold bind_own. destruct (Nat.eqb k i) eqn:E; [apply Nat.eqb_eq in E; congruence|exact N].
Qed.
Lemma alike_run : forall h S S', alike S S' -> Forall (fun o => ~ gives_table k o) h ->
  snd (irun P source F S' (List.map (iop_for k j) h)) = snd (irun P source F S h).
Proof.
  induction h as [|o h IH]; intros S S' A G; [reflexivity|]. inversion G as [|? ? G1 G2]; subst. cbn [List.map]. rewrite !irun_cons. cbn [snd].
  destruct (alike_step S S' o A G1) as [A1 O1]. rewrite O1, (IH _ _ A1 G2). reflexivity.
Qed.
End Base.
Theorem C94_same_as_base : forall P source F holds dicts k j h,
  resolution F k = k :: resolution F j -> alphabet_of F k = alphabet_of F j -> holds k = None -> Forall (fun o => ~ gives_table k o) h ->
  itrace P source F holds dicts (List.map (iop_for k j) h) = itrace P source F holds dicts h.
Proof.
  intros P source F holds dicts k j h HR HA HN G. unfold itrace. apply alike_run; trivial. repeat split. exact HN.
Qed.

(** ** Classes with a table each: the process of C73 *)
Definition class_below (n : nat) (o : wop) : Prop :=
  match o with Make k _ | Put k _ _ _ | PutWif k _ _ | PutAddress k _ _ | Del k _ | SetCoin _ k => (k < n)%nat | _ => True end.
Section Separate.
Variable P : prims.
Variable source : nat -> byte.
Variable F : family.
Variable n : nat.
Hypothesis HR : forall k, (k < n)%nat -> exists r, resolution F k = k :: r.
Definition apart (S : process) (W : world) : Prop :=
  (forall k, (k < n)%nat -> own S k = Some k) /\ List.length (heap S) = n /\ pobjs S = objs W /\ pused S = used W /\
  (forall k, (k < n)%nat -> classes (view F S) k = classes W k) /\
  (forall i o, nth_error (objs W) i = Some (Ok o) -> (o_class o < n)%nat).
Lemma apart_place S W k : apart S W -> (k < n)%nat -> place F S k = k.
Proof. intros A L. destruct A as (A & _). unfold place. destruct (HR k L) as [r ->]. cbn [first_own]. rewrite (A k L). reflexivity. Qed.
Lemma apart_now S W : apart S W -> List.map (now (view F S)) (pobjs S) = List.map (now W) (objs W).
Proof.
  intros (_ & _ & E & _ & C & B). rewrite E. apply map_ext_in. intros r I. destruct r as [o|e]; [|reflexivity]. cbn [now]. apply In_nth_error in I. destruct I as [i I].
  rewrite (C _ (B i o I)). reflexivity.
Qed.
Lemma apart_out S W o : apart S W -> class_below n o -> snd (wexec P source (view F S) o) = snd (wexec P source W o).
Proof.
  intros A B. assert (A' := A). destruct A' as (A1 & A2 & A3 & A4 & A5 & A6).
  assert (AT : forall k m f f', (k < n)%nat -> snd (at_item (view F S) k m f) = snd (at_item W k m f')).
  { intros k m f f' L. unfold at_item. rewrite (A5 k L). destruct (dict_get m _); reflexivity. }
  assert (AO : forall x f, snd (set_object (view F S) x f) = snd (set_object W x f)).
  { intros x f. unfold set_object. cbn [view objs]. rewrite A3. destruct (nth_error (objs W) x) as [[|]|]; reflexivity. }
  destruct o as [k m|o|k m w a|k m w|k m a|k m|x m|x l|x k]; cbn [class_below] in B; cbn [wexec]; try apply AT; try apply AO; trivial.
  - cbn [snd]. rewrite (A5 k B). reflexivity.
  - assert (E : snapshot (view F S) = snapshot W) by (unfold snapshot; cbn [view objs used]; rewrite (apart_now S W A) , A4; reflexivity).
    rewrite E. destruct (exec P source (snapshot W) o); reflexivity.
Qed.
Lemma apart_step S W o : apart S W -> class_below n o -> apart (fst (iexec P source F S (Item o))) (fst (wexec P source W o)).
Proof.
  intros A B. assert (A' := A). destruct A' as (A1 & A2 & A3 & A4 & A5 & A6). rewrite item_state.
  set (S' := {| own := own S; heap := _; pobjs := _; pused := _ |}).
  assert (HL : List.length (heap S') = n) by (cbn [S' heap]; destruct (touched o); rewrite ?set_nth_length; exact A2).
  assert (PL : forall k, (k < n)%nat -> place F S' k = k) by (intros k L; unfold place; cbn [S' own]; exact (apart_place S W k A L)).
  assert (OB : objs (fst (wexec P source (view F S) o)) = objs (fst (wexec P source W o)) /\ used (fst (wexec P source (view F S) o)) = used (fst (wexec P source W o))).
  { destruct o as [k m|o|k m w a|k m w|k m a|k m|x m|x l|x k]; cbn [class_below] in B; cbn [wexec].
    - cbn [fst objs used view]. rewrite A3. cbn [view] in A5. rewrite <- (A5 k B). auto.
    - assert (E : snapshot (view F S) = snapshot W) by (unfold snapshot; cbn [view objs used]; rewrite (apart_now S W A) , A4; reflexivity).
      rewrite E. destruct (exec P source (snapshot W) o). cbn [fst objs used view]. auto.
    - cbn [fst objs used view set_table]. auto.
    - unfold at_item. rewrite (A5 k B). destruct (dict_get _ _); cbn [fst objs used view set_table]; auto.
    - unfold at_item. rewrite (A5 k B). destruct (dict_get _ _); cbn [fst objs used view set_table]; auto.
    - unfold at_item. rewrite (A5 k B). destruct (dict_get _ _); cbn [fst objs used view set_table]; auto.
    - unfold set_object. cbn [view objs]. rewrite A3. destruct (nth_error (objs W) x) as [[|]|]; cbn [fst objs used]; auto.
    - unfold set_object. cbn [view objs]. rewrite A3. destruct (nth_error (objs W) x) as [[|]|]; cbn [fst objs used]; auto.
    - unfold set_object. cbn [view objs]. rewrite A3. destruct (nth_error (objs W) x) as [[|]|]; cbn [fst objs used]; auto. }
  destruct OB as [OB1 OB2].
  split; [exact A1|]. split; [exact HL|]. split; [exact OB1|]. split; [exact OB2|]. split.
  - intros k L. cbn [view classes]. rewrite (PL k L).
    assert (V : classes (view F S) k = classes W k) by (apply A5, L). cbn [view classes] in V. rewrite (apart_place S W k A L) in V.
    pose proof (classes_frame P source W o) as FR.
    assert (NT : touched o = None -> {| c_name := str "Coin"; c_networks := nth k (heap S') []; c_alphabet := alphabet_of F k |} = classes (fst (wexec P source W o)) k).
    { intros T. cbn [S' heap]. rewrite T, V. destruct o; try discriminate T; rewrite FR; reflexivity. }
    destruct (touched o) as [i|] eqn:T; [|apply NT; reflexivity]. cbn [S' heap].
    assert (Li : (i < n)%nat) by (destruct o; cbn in T, B; try discriminate; congruence).
    rewrite (apart_place S W i A Li), set_nth_nth by lia.
    destruct (Nat.eqb i k) eqn:E.
    + apply Nat.eqb_eq in E. subst i.
      assert (X : classes (fst (wexec P source (view F S) o)) k = classes (fst (wexec P source W o)) k /\ c_name (classes (fst (wexec P source W o)) k) = str "Coin" /\ c_alphabet (classes (fst (wexec P source W o)) k) = alphabet_of F k).
      { pose proof (A5 k L) as C. assert (C1 : c_name (classes W k) = str "Coin") by (rewrite <- C; reflexivity). assert (C2 : c_alphabet (classes W k) = alphabet_of F k) by (rewrite <- C; reflexivity).
        destruct o; cbn in T; try discriminate; assert (k0 = k) by congruence; subst k0; cbn [wexec]; unfold at_item; rewrite ?C; try destruct (dict_get _ _); cbn [fst set_table classes];
          rewrite ?Nat.eqb_refl; rewrite ?C; auto. }
      destruct X as (-> & X1 & X2). rewrite <- X2, <- X1. destruct (classes (fst (wexec P source W o)) k); reflexivity.
    + rewrite V. symmetry. apply classes_other. destruct o; cbn in T |- *; try discriminate; trivial; apply Nat.eqb_neq in E; congruence.
  - intros x ob H. pose proof (A6 x) as A6'. destruct (nth_error (objs W) x) as [[q|e]|] eqn:Q.
    + rewrite (attrs_step P source W o x q Q) in H. assert (ob = attrs x [o] q) by congruence. subst ob. cbn [attrs o_class]. unfold coin_attr. cbn [fold_left].
      destruct o; try exact (A6' q eq_refl). destruct (Nat.eqb i x); [exact B|exact (A6' q eq_refl)].
    + rewrite (unmade_step P source W o x e Q) in H. discriminate.
    + destruct o as [k m|o|k m w a|k m w|k m a|k m|y m|y l|y k]; cbn [wexec] in H.
      * cbn [fst objs] in H. apply nth_error_None in Q. destruct (Nat.eq_dec x (List.length (objs W))) as [->|NE].
        -- rewrite nth_error_app2, Nat.sub_diag in H by lia. cbn [nth_error] in H. destruct (bip38_init _ m); inversion H; subst; exact B.
        -- rewrite (proj2 (nth_error_None _ _)) in H; [discriminate|]. rewrite app_length. cbn [List.length]. lia.
      * destruct (exec P source (snapshot W) o). cbn [fst objs] in H. congruence.
      * cbn [fst set_table objs] in H. congruence.
      * unfold at_item in H. destruct (dict_get _ _); cbn [fst set_table objs] in H; congruence.
      * unfold at_item in H. destruct (dict_get _ _); cbn [fst set_table objs] in H; congruence.
      * unfold at_item in H. destruct (dict_get _ _); cbn [fst set_table objs] in H; congruence.
      * unfold set_object in H. destruct (nth_error (objs W) y) as [[|]|]; cbn [fst objs] in H; try congruence. exfalso. apply nth_error_None in Q. rewrite (proj2 (nth_error_None _ _)) in H; [discriminate|]. rewrite set_nth_length. exact Q.
      * unfold set_object in H. destruct (nth_error (objs W) y) as [[|]|]; cbn [fst objs] in H; try congruence. exfalso. apply nth_error_None in Q. rewrite (proj2 (nth_error_None _ _)) in H; [discriminate|]. rewrite set_nth_length. exact Q.
      * unfold set_object in H. destruct (nth_error (objs W) y) as [[|]|]; cbn [fst objs] in H; try congruence. exfalso. apply nth_error_None in Q. rewrite (proj2 (nth_error_None _ _)) in H; [discriminate|]. rewrite set_nth_length. exact Q.
Qed.
Lemma apart_run : forall h S W, apart S W -> Forall (class_below n) h -> snd (irun P source F S (List.map Item h)) = snd (wrun P source W h).
Proof.
  induction h as [|o h IH]; intros S W A B; [reflexivity|]. inversion B as [|? ? B1 B2]; subst. cbn [List.map]. rewrite irun_cons, wrun_cons. cbn [snd].
  rewrite item_out, (apart_out S W o A B1), (IH _ _ (apart_step S W o A B1) B2). reflexivity.
Qed.
End Separate.
Theorem C94_separate : forall P source F holds dicts h,
  (forall k, (k < List.length dicts)%nat -> holds k = Some k /\ exists r, resolution F k = k :: r) -> Forall (class_below (List.length dicts)) h ->
  itrace P source F holds dicts (List.map Item h) =
  wtrace P source (fun k => {| c_name := str "Coin"; c_networks := nth k dicts []; c_alphabet := alphabet_of F k |}) h.
Proof.
  intros P source F holds dicts h HH HB. unfold itrace, wtrace. apply (apart_run P source F (List.length dicts)); [intros k L; apply HH, L| |exact HB].
  split; [intros k L; apply HH, L|]. split; [reflexivity|]. split; [reflexivity|]. split; [reflexivity|]. split.
  - intros k L. destruct (HH k L) as [H1 [r H2]]. cbn [view classes fresh start own heap]. unfold place. cbn [start own]. rewrite H2. cbn [first_own]. rewrite H1. reflexivity.
  - intros [|i] o H; discriminate.
Qed.

(** ** The hypotheses are met *)
(** Class 0 is Bitcoin; all others are its subclasses; class 2 has a table of its own. *)
Definition coins : family := {| resolution := fun k => match k with 0%nat => [0%nat] | _ => [k; 0%nat] end; alphabet_of := fun _ => None |}.
Definition holders (k : nat) : option nat := match k with 0%nat => Some 0%nat | 2%nat => Some 1%nat | _ => None end.
Definition two_dicts : list table := [c_networks coin_Bitcoin; [(str "mainnet", (5, 6))]].
Example C94_met : all_see_a_table coins holders two_dicts /\
  (** an entry put into Bitcoin's table is seen by subclass 1, not by subclass 2; *)
  (let h := [Item (Put 0 (str "custom") 7 8)] in
   seen_entry coins holders two_dicts h 1 (str "custom") = Some (7, 8) /\ seen_entry coins holders two_dicts h 2 (str "custom") = None) /\
  (** and the other way round, until subclass 1 is given a table; *)
  (let h := [Item (PutWif 1 (str "mainnet") 9); NewTable 1 [(str "own", (1, 2))]; Item (PutAddress 1 (str "own") 3); Item (Put 0 (str "custom") 7 8)] in
   seen_entry coins holders two_dicts h 0 (str "mainnet") = Some (9, 0) /\ seen_entry coins holders two_dicts h 1 (str "mainnet") = None /\
   seen_names coins holders two_dicts h 1 = [str "own"] /\ seen_entry coins holders two_dicts h 1 (str "own") = Some (1, 3) /\
   seen_names coins holders two_dicts h 3 = [str "mainnet"; str "testnet"; str "regtest"; str "custom"]) /\
  (** sharing is by reference, and ends when either side gets another table. *)
  (let h := [ShareTable 0 2; Item (Put 2 (str "x") 1 1); NewTable 2 []; Item (Put 0 (str "y") 2 2)] in
   seen_names coins holders two_dicts h 5 = [str "mainnet"; str "x"; str "y"] /\ seen_names coins holders two_dicts h 2 = []).
Proof.
  split.
  - split.
    + intros [|k]; [exists 0%nat, 0%nat; split; [left|]; reflexivity|]. exists 0%nat, 0%nat. split; [right; left|]; reflexivity.
    + intros [|[|[|j]]] t H; cbn in H; try discriminate; assert (E : (t < 2)%nat) by (inversion H; subst; repeat constructor); exact E.
  - vm_compute. intuition congruence.
Qed.
(** An object of the subclass, made for testnet, decrypts a mainnet key once
    Bitcoin has been given a table with mainnet's prefixes under that name. *)
Example C94_run : forall source, exists e d,
  nth_error (itrace toy source coins holders two_dicts
    [Item (Make 1 (str "testnet")); NewTable 0 [(str "testnet", (0x80, 0))]; Item (Call (Decrypt 0 e (str "TestingOneTwoThree") None true))]) 2 =
  Some ([], WCall (ODecrypt (Ok (DDetail d)))).
Proof.
  intros source. destruct C16_example as (e & x & D & _). exists e, x.
  destruct (C94_used toy source coins holders two_dicts [] 1 (str "testnet") [NewTable 0 [(str "testnet", (0x80, 0))]]
    (Decrypt 0 e (str "TestingOneTwoThree") None true) [] 0x80 0 toy_ok (proj1 C94_met)) as (d & b & r & T & R); try reflexivity; try discriminate.
  - right. left. reflexivity.
  - cbn [app List.length] in T. rewrite T. clear T. change (chosen _ _) with (str "testnet") in R.
    rewrite (result_with_eq toy _ (str "testnet") 0x80 0 (Decrypt 0 e (str "TestingOneTwoThree") None true) 0 eq_refl) in R. cbn [on_first exec] in R.
    unfold with_object in R. cbn [objects nth_error snd] in R.
    set (self := {| s_cryptocurrency := _; s_networks := _; s_network := _; s_alphabet := _ |}) in R.
    assert (N : decrypt toy btc e (str "TestingOneTwoThree") None true = decrypt toy self e (str "TestingOneTwoThree") None true).
    { destruct (session_net_sel _ _ _ _ btc_session) as (n & N). apply (decrypt_prefixes toy _ _ _ _ _ (str "testnet") 0x80 0 _ _ _ toy_ok N).
      constructor; try reflexivity; lia. }
    rewrite D in N. rewrite <- N in R. inversion R. reflexivity.
Qed.
(** Subclass 1 stands for Bitcoin; with two classes that have a table each the process is that of C73. *)
Example C94_base_met : resolution coins 1 = 1%nat :: resolution coins 0 /\ alphabet_of coins 1 = alphabet_of coins 0 /\ holders 1 = None /\
  Forall (fun o => ~ gives_table 1 o) [Item (Make 1 (str "mainnet")); NewTable 0 []; ShareTable 2 1].
Proof. repeat split. repeat constructor; cbn; intros H; congruence. Qed.
Example C94_separate_met : let F := {| resolution := fun k => [k]; alphabet_of := fun _ => None |} in
  (forall k, (k < List.length two_dicts)%nat -> Some k = Some k /\ exists r, resolution F k = k :: r) /\
  Forall (class_below (List.length two_dicts)) changes.
Proof. split; [intros k _; split; [reflexivity|exists []; reflexivity]|]. repeat constructor. Qed.
