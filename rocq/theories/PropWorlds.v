(** * C73: programs that change the coins' tables and the attributes of their
    BIP38 objects. *)
From Coq Require Import Lia.
From Verif Require Import Py Prims Const Spec PyFacts Exceptions ErrorFacts Utils UtilsFacts Base58 SpecBip38 SpecRecords SpecSession Cryptocurrencies P2PKHAddress Wif Bip38 History Worlds
  CodecFacts2 Bip38Facts Bip38Facts2 Sessions RecordFacts ECFacts Toy PropIntermediate PropCreate PropEncrypt PropDecrypt PropSession PropUnique PropHistory.

(** ** What a history of operations says about tables and objects *)
(** The entry for [m] in the table of class [k] after the operations [h]: what
    was put there last, or what it was at the start. *)
Definition entry (cs : nat -> coin) (h : list wop) (k : nat) (m : pystr) : option (Z * Z) :=
  fold_left (fun e o =>
    let here k' m' := Nat.eqb k' k && str_eqb m' m in
    match o with
    | Put k' m' w a => if here k' m' then Some (w, a) else e
    | PutWif k' m' w => if here k' m' then option_map (fun v => (w, snd v)) e else e
    | PutAddress k' m' a => if here k' m' then option_map (fun v => (fst v, a)) e else e
    | Del k' m' => if here k' m' then None else e
    | _ => e
    end) h (dict_get m (c_networks (cs k))).
(** The names in the table of class [k], in the dict's order *)
Definition names (cs : nat -> coin) (h : list wop) (k : nat) : list pystr :=
  fold_left (fun l o =>
    match o with
    | Put k' m _ _ => if Nat.eqb k' k && negb (str_in m l) then l ++ [m] else l
    | Del k' m => if Nat.eqb k' k then List.filter (fun x => negb (str_eqb m x)) l else l
    | _ => l
    end) h (List.map fst (c_networks (cs k))).
(** The number of constructor calls, which is the number of the next object *)
Fixpoint makes (h : list wop) : nat :=
  match h with [] => 0 | Make _ _ :: r => S (makes r) | _ :: r => makes r end.
(** The attributes of object [i] after the operations [h], if they were [x] *)
Definition network_attr (i : nat) (h : list wop) (x : pystr) : pystr :=
  fold_left (fun x o => match o with SetNetwork j y => if Nat.eqb j i then y else x | _ => x end) h x.
Definition networks_attr (i : nat) (h : list wop) (x : list pystr) : list pystr :=
  fold_left (fun x o => match o with SetNetworks j y => if Nat.eqb j i then y else x | _ => x end) h x.
Definition coin_attr (i : nat) (h : list wop) (x : nat) : nat :=
  fold_left (fun x o => match o with SetCoin j y => if Nat.eqb j i then y else x | _ => x end) h x.

(** The network argument of a method call, and the calls that raise an error *)
Definition network_arg (o : op) : option pystr :=
  match o with
  | New _ _ | Intermediate _ _ _ _ => None
  | Encrypt _ _ _ n | Create _ _ _ _ n | Confirm _ _ _ n _ | Decrypt _ _ _ n _ => n
  end.
Definition raised (x : outcome) : option exn :=
  let f A (r : res A) := match r with Ok _ => None | Raise e => Some e end in
  match x with
  | ONew e => e | OIntermediate r => f _ r | OEncrypt r => f _ r | OCreate r => f _ r | OConfirm r => f _ r | ODecrypt r => f _ r
  | ONoObject => None
  end.
(** A class with a table of one entry *)
Definition one_entry (m : pystr) (w a : Z) : coin :=
  {| c_name := str "Coin"; c_networks := [(m, (w, a))]; c_alphabet := None |}.
(** The result of a method call (on its first object) in a process with nothing
    but one object, of a class with one entry *)
Definition result_with (P : prims) (source : nat -> byte) (m : pystr) (w a : Z) (o : op) : option (bytes * outcome) :=
  nth_error (trace P source [New (CoinClass (one_entry m w a)) m; on_first o]) 1.

(** ** The model keeps these accounts *)
Lemma str_eqb_sym a b : str_eqb a b = str_eqb b a.
Proof.
  destruct (str_eqb a b) eqn:E, (str_eqb b a) eqn:F; trivial.
  - apply str_eqb_spec in E. subst. rewrite (proj2 (str_eqb_spec b b) eq_refl) in F. discriminate.
  - apply str_eqb_spec in F. subst. rewrite (proj2 (str_eqb_spec a a) eq_refl) in E. discriminate.
Qed.
Lemma get_put {A} n (v : A) m d : dict_get m (dict_put n v d) = if str_eqb n m then Some v else dict_get m d.
Proof.
  induction d as [|[k x] d IH]; cbn [dict_put dict_get].
  - rewrite (str_eqb_sym m n). reflexivity.
  - destruct (str_eqb n k) eqn:E; cbn [dict_get].
    + apply str_eqb_spec in E. subst k. rewrite (str_eqb_sym m n). destruct (str_eqb n m); reflexivity.
    + rewrite IH. destruct (str_eqb m k) eqn:F; [|reflexivity]. apply str_eqb_spec in F. subst k. rewrite E. reflexivity.
Qed.
Lemma get_del {A} n m (d : list (pystr * A)) : dict_get m (dict_del n d) = if str_eqb n m then None else dict_get m d.
Proof.
  unfold dict_del. induction d as [|[k x] d IH]; cbn [filter dict_get fst].
  - destruct (str_eqb n m); reflexivity.
  - destruct (str_eqb n k) eqn:E; cbn [negb].
    + rewrite IH. apply str_eqb_spec in E. subst k. rewrite (str_eqb_sym m n). destruct (str_eqb n m); reflexivity.
    + cbn [dict_get]. rewrite IH. destruct (str_eqb m k) eqn:F; [|reflexivity]. apply str_eqb_spec in F. subst k. rewrite E. reflexivity.
Qed.
Lemma keys_put {A} n (v : A) d : List.map fst (dict_put n v d) = if str_in n (List.map fst d) then List.map fst d else List.map fst d ++ [n].
Proof.
  induction d as [|[k x] d IH]; [reflexivity|]. cbn [dict_put List.map fst str_in existsb]. unfold str_in in *. cbn [existsb].
  destruct (str_eqb n k) eqn:E; cbn [List.map fst orb]; [reflexivity|]. rewrite IH. destruct (existsb _ _); reflexivity.
Qed.
Lemma keys_put_present {A} n (v : A) d x : dict_get n d = Some x -> List.map fst (dict_put n v d) = List.map fst d.
Proof. intros H. rewrite keys_put. rewrite (proj2 (str_in_spec n _) (dict_get_key _ _ _ H)). reflexivity. Qed.
Lemma filter_keys (n : pystr) (d : list pystr) : ~ In n d -> List.filter (fun x => negb (str_eqb n x)) d = d.
Proof.
  induction d as [|k d IH]; [reflexivity|]. intros H. cbn [filter]. destruct (str_eqb n k) eqn:E.
  - apply str_eqb_spec in E. subst k. exfalso. apply H. left. reflexivity.
  - cbn [negb]. f_equal. apply IH. intros I. apply H. right. exact I.
Qed.
Lemma keys_del {A} n (d : list (pystr * A)) : List.map fst (dict_del n d) = List.filter (fun x => negb (str_eqb n x)) (List.map fst d).
Proof.
  unfold dict_del. induction d as [|[k x] d IH]; [reflexivity|]. cbn [filter List.map fst]. destruct (str_eqb n k); cbn [negb List.map fst]; rewrite IH; reflexivity.
Qed.

Lemma classes_frame P source W o : match o with Put _ _ _ _ | PutWif _ _ _ | PutAddress _ _ _ | Del _ _ => True | _ => classes (fst (wexec P source W o)) = classes W end.
Proof.
  destruct o; trivial; cbn [wexec]; try reflexivity.
  - destruct (exec P source (snapshot W) o); reflexivity.
  - unfold set_object. destruct (nth_error _ i) as [[|]|]; reflexivity.
  - unfold set_object. destruct (nth_error _ i) as [[|]|]; reflexivity.
  - unfold set_object. destruct (nth_error _ i) as [[|]|]; reflexivity.
Qed.
Lemma set_table_get W k t j : c_networks (classes (set_table W k t) j) = if Nat.eqb k j then t else c_networks (classes W j).
Proof. cbn [set_table classes]. rewrite Nat.eqb_sym. destruct (Nat.eqb k j) eqn:E; reflexivity. Qed.
Lemma at_item_get W k n f j : c_networks (classes (fst (at_item W k n f)) j) =
  match dict_get n (c_networks (classes W k)) with Some v => if Nat.eqb k j then f v else c_networks (classes W j) | None => c_networks (classes W j) end.
Proof. unfold at_item. destruct (dict_get n _); cbn [fst]; [apply set_table_get|reflexivity]. Qed.

Lemma entry_step P source W o k m : dict_get m (c_networks (classes (fst (wexec P source W o)) k)) = entry (classes W) [o] k m.
Proof.
  unfold entry. cbn [fold_left]. pose proof (classes_frame P source W o) as F.
  destruct o; try (rewrite F; reflexivity); clear F; cbn [wexec].
  - cbn [fst]. rewrite set_table_get. destruct (Nat.eqb k0 k) eqn:E; cbn [andb]; [|reflexivity]. apply Nat.eqb_eq in E. subst k0. apply get_put.
  - rewrite at_item_get. destruct (Nat.eqb k0 k) eqn:E; cbn [andb]; [|destruct (dict_get name _); reflexivity]. apply Nat.eqb_eq in E. subst k0.
    destruct (dict_get name (c_networks (classes W k))) as [v|] eqn:D.
    + rewrite get_put. destruct (str_eqb name m) eqn:E; [|reflexivity]. apply str_eqb_spec in E. subst m. rewrite D. reflexivity.
    + destruct (str_eqb name m) eqn:E; [|reflexivity]. apply str_eqb_spec in E. subst m. rewrite D. reflexivity.
  - rewrite at_item_get. destruct (Nat.eqb k0 k) eqn:E; cbn [andb]; [|destruct (dict_get name _); reflexivity]. apply Nat.eqb_eq in E. subst k0.
    destruct (dict_get name (c_networks (classes W k))) as [v|] eqn:D.
    + rewrite get_put. destruct (str_eqb name m) eqn:E; [|reflexivity]. apply str_eqb_spec in E. subst m. rewrite D. reflexivity.
    + destruct (str_eqb name m) eqn:E; [|reflexivity]. apply str_eqb_spec in E. subst m. rewrite D. reflexivity.
  - rewrite at_item_get. destruct (Nat.eqb k0 k) eqn:E; cbn [andb]; [|destruct (dict_get name _); reflexivity]. apply Nat.eqb_eq in E. subst k0.
    destruct (dict_get name (c_networks (classes W k))) as [v|] eqn:D.
    + apply get_del.
    + destruct (str_eqb name m) eqn:E; [|reflexivity]. apply str_eqb_spec in E. subst m. exact D.
Qed.
Lemma names_step P source W o k : List.map fst (c_networks (classes (fst (wexec P source W o)) k)) = names (classes W) [o] k.
Proof.
  unfold names. cbn [fold_left]. pose proof (classes_frame P source W o) as F.
  destruct o; try (rewrite F; reflexivity); clear F; cbn [wexec].
  - cbn [fst]. rewrite set_table_get. destruct (Nat.eqb k0 k) eqn:E; cbn [andb]; [|reflexivity]. apply Nat.eqb_eq in E. subst k0.
    rewrite keys_put. destruct (str_in name _); reflexivity.
  - rewrite at_item_get. destruct (dict_get name (c_networks (classes W k0))) as [v|] eqn:D; [|reflexivity]. destruct (Nat.eqb k0 k) eqn:E; [|reflexivity]. apply Nat.eqb_eq in E. subst k0.
    exact (keys_put_present _ _ _ _ D).
  - rewrite at_item_get. destruct (dict_get name (c_networks (classes W k0))) as [v|] eqn:D; [|reflexivity]. destruct (Nat.eqb k0 k) eqn:E; [|reflexivity]. apply Nat.eqb_eq in E. subst k0.
    exact (keys_put_present _ _ _ _ D).
  - rewrite at_item_get. destruct (Nat.eqb k0 k) eqn:E; [|destruct (dict_get name _); reflexivity]. apply Nat.eqb_eq in E. subst k0.
    destruct (dict_get name (c_networks (classes W k))) as [v|] eqn:D; [apply keys_del|]. apply dict_get_none in D. symmetry. apply filter_keys, D.
Qed.
Lemma wrun_app P source : forall h1 W h2, wrun P source W (h1 ++ h2) =
  (fst (wrun P source (fst (wrun P source W h1)) h2), snd (wrun P source W h1) ++ snd (wrun P source (fst (wrun P source W h1)) h2)).
Proof.
  induction h1 as [|o h1 IH]; intros W h2.
  - cbn [app wrun fst snd]. destruct (wrun P source W h2); reflexivity.
  - cbn [app wrun]. destruct (wexec P source W o) as [W1 x]. rewrite IH. destruct (wrun P source W1 h1) as [W2 l]. reflexivity.
Qed.
Lemma wrun_cons P source W o h : wrun P source W (o :: h) =
  (fst (wrun P source (fst (wexec P source W o)) h), snd (wexec P source W o) :: snd (wrun P source (fst (wexec P source W o)) h)).
Proof. cbn [wrun]. destruct (wexec P source W o) as [W1 x]. cbn [fst snd]. destruct (wrun P source W1 h); reflexivity. Qed.
Lemma wrun_length P source : forall h W, List.length (snd (wrun P source W h)) = List.length h.
Proof. induction h as [|o h IH]; intros W; [reflexivity|]. rewrite wrun_cons. cbn [snd List.length]. rewrite IH. reflexivity. Qed.
Lemma wtrace_nth P source cs h1 o h2 : nth_error (wtrace P source cs (h1 ++ o :: h2)) (List.length h1) =
  Some (snd (wexec P source (fst (wrun P source (fresh cs) h1)) o)).
Proof.
  unfold wtrace. rewrite wrun_app. cbn [snd]. rewrite nth_error_app2; rewrite wrun_length; [|lia]. rewrite Nat.sub_diag, wrun_cons. reflexivity.
Qed.
Lemma entry_run P source : forall h W k m, dict_get m (c_networks (classes (fst (wrun P source W h)) k)) = entry (classes W) h k m.
Proof.
  induction h as [|o h IH]; intros W k m; [reflexivity|]. rewrite wrun_cons. cbn [fst]. rewrite IH. unfold entry at 1. rewrite entry_step. reflexivity.
Qed.
Lemma names_run P source : forall h W k, List.map fst (c_networks (classes (fst (wrun P source W h)) k)) = names (classes W) h k.
Proof.
  induction h as [|o h IH]; intros W k; [reflexivity|]. rewrite wrun_cons. cbn [fst]. rewrite IH. unfold names at 1. rewrite names_step. reflexivity.
Qed.
Lemma set_nth_length {A} (v : A) : forall l i, List.length (set_nth i v l) = List.length l.
Proof. induction l as [|x l IH]; intros [|i]; cbn [set_nth List.length]; auto. Qed.
Lemma set_nth_same {A} (v : A) : forall l i, (i < List.length l)%nat -> nth_error (set_nth i v l) i = Some v.
Proof. induction l as [|x l IH]; intros [|i] H; cbn in *; try lia; [reflexivity|apply IH; lia]. Qed.
Lemma set_nth_other {A} (v : A) : forall l i j, i <> j -> nth_error (set_nth i v l) j = nth_error l j.
Proof. induction l as [|x l IH]; intros [|i] [|j] H; cbn; try reflexivity; try congruence. apply IH. congruence. Qed.
Lemma objs_length P source : forall h W, List.length (objs (fst (wrun P source W h))) = (List.length (objs W) + makes h)%nat.
Proof.
  induction h as [|o h IH]; intros W; [cbn; lia|]. rewrite wrun_cons. cbn [fst]. rewrite IH.
  assert (E : List.length (objs (fst (wexec P source W o))) = (List.length (objs W) + match o with Make _ _ => 1 | _ => 0 end)%nat).
  { destruct o; cbn [wexec].
    - cbn [fst objs]. rewrite app_length. reflexivity.
    - destruct (exec P source (snapshot W) o); cbn; lia.
    - cbn; lia.
    - unfold at_item. destruct (dict_get _ _); cbn; lia.
    - unfold at_item. destruct (dict_get _ _); cbn; lia.
    - unfold at_item. destruct (dict_get _ _); cbn; lia.
    - unfold set_object. destruct (nth_error _ i) as [[|]|]; cbn [fst objs]; rewrite ?set_nth_length; lia.
    - unfold set_object. destruct (nth_error _ i) as [[|]|]; cbn [fst objs]; rewrite ?set_nth_length; lia.
    - unfold set_object. destruct (nth_error _ i) as [[|]|]; cbn [fst objs]; rewrite ?set_nth_length; lia. }
  rewrite E. destruct o; cbn [makes]; lia.
Qed.
Definition attrs (i : nat) (h : list wop) (ob : object) : object :=
  {| o_class := coin_attr i h (o_class ob); o_networks := networks_attr i h (o_networks ob);
     o_network := network_attr i h (o_network ob); o_alphabet := o_alphabet ob |}.
Lemma set_object_nth W i f j ob : nth_error (objs W) j = Some (Ok ob) ->
  nth_error (objs (fst (set_object W i f))) j = Some (Ok (if Nat.eqb i j then f ob else ob)).
Proof.
  intros H. unfold set_object. destruct (Nat.eqb i j) eqn:E.
  - apply Nat.eqb_eq in E. subst j. rewrite H. cbn [fst objs]. apply set_nth_same. apply nth_error_Some. rewrite H. discriminate.
  - apply Nat.eqb_neq in E. destruct (nth_error (objs W) i) as [[o|]|]; cbn [fst objs]; try exact H. rewrite set_nth_other by exact E. exact H.
Qed.
Lemma attrs_step P source W o i ob : nth_error (objs W) i = Some (Ok ob) -> nth_error (objs (fst (wexec P source W o))) i = Some (Ok (attrs i [o] ob)).
Proof.
  intros H. assert (I : attrs i [] ob = ob) by (destruct ob; reflexivity).
  destruct o; cbn [wexec]; try (change (attrs i [_] ob) with (attrs i [] ob); rewrite I).
  - cbn [fst objs]. rewrite nth_error_app1; [exact H|]. apply nth_error_Some. rewrite H. discriminate.
  - destruct (exec P source (snapshot W) o); exact H.
  - exact H.
  - unfold at_item. destruct (dict_get _ _); exact H.
  - unfold at_item. destruct (dict_get _ _); exact H.
  - unfold at_item. destruct (dict_get _ _); exact H.
  - rewrite (set_object_nth _ _ _ _ _ H). unfold attrs, coin_attr, networks_attr, network_attr. cbn [fold_left]. destruct (Nat.eqb i0 i); destruct ob; reflexivity.
  - rewrite (set_object_nth _ _ _ _ _ H). unfold attrs, coin_attr, networks_attr, network_attr. cbn [fold_left]. destruct (Nat.eqb i0 i); destruct ob; reflexivity.
  - rewrite (set_object_nth _ _ _ _ _ H). unfold attrs, coin_attr, networks_attr, network_attr. cbn [fold_left]. destruct (Nat.eqb i0 i); destruct ob; reflexivity.
Qed.
Lemma attrs_run P source i : forall h W ob, nth_error (objs W) i = Some (Ok ob) -> nth_error (objs (fst (wrun P source W h))) i = Some (Ok (attrs i h ob)).
Proof.
  induction h as [|o h IH]; intros W ob H; [destruct ob; exact H|]. rewrite wrun_cons. cbn [fst].
  rewrite (IH _ _ (attrs_step P source W o i ob H)). reflexivity.
Qed.
Lemma init_names c n : bip38_init (CoinClass c) n =
  if str_in n (List.map fst (c_networks c))
  then Ok {| s_cryptocurrency := c; s_networks := List.map fst (c_networks c); s_network := n;
             s_alphabet := match c_alphabet c with Some (x :: a) => x :: a | _ => Bitcoin_ALPHABET end |}
  else Raise (Lib CNetworkError match c_networks c with [] => str "Wrong network type"
       | _ => error_text "Wrong network type" (quoted_list (List.map fst (c_networks c))) (str "<class 'str'>") end).
Proof.
  destruct (str_in n (List.map fst (c_networks c))) eqn:E.
  - unfold bip38_init. rewrite E. reflexivity.
  - apply (proj1 (C32_rejects n)). intros I. apply str_in_spec in I. congruence.
Qed.
Lemma entry_names (P : prims) (source : nat -> byte) W h k m : entry (classes W) h k m <> None <-> In m (names (classes W) h k).
Proof.
  rewrite <- (entry_run P source), <- (names_run P source). destruct (dict_get m _) eqn:D.
  - split; [|discriminate]. intros _. exact (dict_get_key _ _ _ D).
  - split; [congruence|]. intros I. apply dict_get_none in D. contradiction.
Qed.
(** Object number [i], made from class [k] for network [n0] after [h1], after [h2] more *)
Lemma object_at P source cs h1 k n0 h2 : entry cs h1 k n0 <> None ->
  exists ob, nth_error (objs (fst (wrun P source (fresh cs) (h1 ++ Make k n0 :: h2)))) (makes h1) = Some (Ok ob) /\
    o_class ob = coin_attr (makes h1) h2 k /\ o_networks ob = networks_attr (makes h1) h2 (names cs h1 k) /\
    o_network ob = network_attr (makes h1) h2 n0.
Proof.
  intros H. rewrite wrun_app, wrun_cons. cbn [fst]. set (W := fst (wrun P source (fresh cs) h1)).
  apply (entry_names P source (fresh cs)) in H. apply str_in_spec in H.
  assert (N : List.map fst (c_networks (classes W k)) = names cs h1 k) by apply (names_run P source h1 (fresh cs)).
  set (ob := {| o_class := k; o_networks := names cs h1 k; o_network := n0;
    o_alphabet := match c_alphabet (classes W k) with Some (x :: a) => x :: a | _ => Bitcoin_ALPHABET end |}).
  exists (attrs (makes h1) h2 ob). split; [|repeat split]. apply attrs_run. cbn [wexec fst objs].
  assert (L : List.length (objs W) = makes h1) by (subst W; rewrite objs_length; reflexivity).
  rewrite nth_error_app2, L, Nat.sub_diag by lia. cbn [nth_error]. rewrite init_names, N. cbn [classes fresh] in H. rewrite H.
  reflexivity.
Qed.
Lemma snapshot_nth W i ob : nth_error (objs W) i = Some (Ok ob) ->
  nth_error (objects (snapshot W)) i = Some (Ok {| s_cryptocurrency := classes W (o_class ob); s_networks := o_networks ob; s_network := o_network ob; s_alphabet := o_alphabet ob |}).
Proof. intros H. unfold snapshot. cbn [objects]. rewrite nth_error_map, H. reflexivity. Qed.
Lemma call_snd P source W o : snd (wexec P source W (Call o)) = (fst (snd (exec P source (snapshot W) o)), WCall (snd (snd (exec P source (snapshot W) o)))).
Proof. cbn [wexec]. destruct (exec P source (snapshot W) o) as [s x]. reflexivity. Qed.

(** ** C73 *)
(** The error for a name that is not in a list of names *)
Definition wrong_network (l : list pystr) : exn :=
  Lib CNetworkError match l with [] => str "Wrong network type" | _ => error_text "Wrong network type" (quoted_list l) (str "<class 'str'>") end.
Lemma select_wrong self network : ~ In (chosen network (s_network self)) (s_networks self) -> select_network self network = Raise (wrong_network (s_networks self)).
Proof.
  intros H. unfold wrong_network. destruct (s_networks self) as [|x l] eqn:E.
  - rewrite (chosen_select self network _ eq_refl), E. reflexivity.
  - rewrite <- E in *. apply (select_error self network _ eq_refl); [rewrite E; discriminate|exact H].
Qed.

(** The constructor accepts the names that are in the table when it is called. *)
Theorem C73_constructor : forall P source cs h1 k n0 h2,
  nth_error (wtrace P source cs (h1 ++ Make k n0 :: h2)) (List.length h1) =
  Some ([], WCall (ONew match entry cs h1 k n0 with Some _ => None | None => Some (wrong_network (names cs h1 k)) end)) /\
  (forall m, In m (names cs h1 k) <-> entry cs h1 k m <> None).
Proof.
  intros P source cs h1 k n0 h2. split; [|intros m; symmetry; apply (entry_names P source (fresh cs))]. rewrite wtrace_nth.
  set (W := fst (wrun P source (fresh cs) h1)).
  assert (N : List.map fst (c_networks (classes W k)) = names cs h1 k) by apply (names_run P source h1 (fresh cs)).
  assert (E : dict_get n0 (c_networks (classes W k)) = entry cs h1 k n0) by apply (entry_run P source h1 (fresh cs)).
  cbn [wexec snd]. rewrite init_names. rewrite <- E, <- N. destruct (dict_get n0 _) eqn:D.
  - rewrite (proj2 (str_in_spec n0 _) (dict_get_key _ _ _ D)). reflexivity.
  - apply dict_get_none in D. destruct (str_in n0 _) eqn:I; [apply str_in_spec in I; contradiction|]. unfold wrong_network.
    destruct (c_networks (classes W k)); reflexivity.
Qed.
(** An object remembers the names: a name that was not in the table when it was
    made is refused, whatever has been put into the table since - unless the
    object's own list was replaced, which then decides. *)
Theorem C73_refused : forall P source cs h1 k n0 h2 o h3, entry cs h1 k n0 <> None -> object_of o = Some (makes h1) ->
  let i := makes h1 in let h := h1 ++ Make k n0 :: h2 in
  let known := networks_attr i h2 (names cs h1 k) in
  ~ In (chosen (network_arg o) (network_attr i h2 n0)) known ->
  exists r, nth_error (wtrace P source cs (h ++ Call o :: h3)) (List.length h) = Some ([], WCall r) /\ raised r = Some (wrong_network known).
Proof.
  intros P source cs h1 k n0 h2 o h3 HE HO i h known HN. rewrite wtrace_nth. destruct (object_at P source cs h1 k n0 h2 HE) as (ob & O & _ & E2 & E3).
  fold i h in O. set (W := fst (wrun P source (fresh cs) h)) in *. apply snapshot_nth in O. rewrite call_snd. fold i in E2, E3.
  set (self := {| s_cryptocurrency := classes W (o_class ob); s_networks := o_networks ob; s_network := o_network ob; s_alphabet := o_alphabet ob |}) in O.
  assert (S : select_network self (network_arg o) = Raise (wrong_network known)).
  { unfold known. rewrite <- E2. apply (select_wrong self). cbn [self s_network s_networks]. rewrite E2, E3. exact HN. }
  destruct o as [c n|pw l q salt|j w p n|j c t seed n|j p c n d|j e p n d]; cbn in HO; try discriminate; assert (j = i) by (unfold i; congruence); subst j; cbn [network_arg] in S; cbn [exec]; unfold with_object; rewrite O.
  - cbn [fst snd]. eexists. split; [reflexivity|]. rewrite (encrypt_no_net _ _ _ _ _ _ S). reflexivity.
  - rewrite S. cbn [fst snd]. eexists. split; [reflexivity|]. rewrite (create_no_net _ _ _ _ _ _ _ _ S). reflexivity.
  - cbn [fst snd]. eexists. split; [reflexivity|]. rewrite (confirm_no_net _ _ _ _ _ _ _ S). reflexivity.
  - cbn [fst snd]. eexists. split; [reflexivity|]. rewrite (decrypt_no_net _ _ _ _ _ _ _ S). reflexivity.
Qed.
Lemma one_init m w a : bip38_init (CoinClass (one_entry m w a)) m =
  Ok {| s_cryptocurrency := one_entry m w a; s_networks := [m]; s_network := m; s_alphabet := Bitcoin_ALPHABET |}.
Proof. rewrite init_names. cbn [one_entry c_networks List.map fst]. rewrite (proj2 (str_in_spec m [m]) (or_introl eq_refl)). reflexivity. Qed.
Lemma result_with_eq P source m w a o i : object_of o = Some i ->
  let self := {| s_cryptocurrency := one_entry m w a; s_networks := [m]; s_network := m; s_alphabet := Bitcoin_ALPHABET |} in
  result_with P source m w a o = Some (snd (exec P source {| objects := [Ok self]; taken := 0 |} (on_first o))).
Proof.
  intros _ self. unfold result_with.
  transitivity (Some (snd (exec P source (fst (run P source initial [New (CoinClass (one_entry m w a)) m])) (on_first o)))).
  - exact (trace_nth P source [New (CoinClass (one_entry m w a)) m] (on_first o) []).
  - cbn [run exec fst]. rewrite one_init. reflexivity.
Qed.
Lemma urandom_shift (source : nat -> byte) d n : List.map source (seq d n) = List.map (fun j => source (d + j)%nat) (seq 0 n).
Proof.
  rewrite <- (map_map (fun k => (d + k)%nat) source). f_equal. rewrite <- (Nat.add_0_r d) at 1. generalize 0%nat.
  induction n as [|n IH]; intros z; [reflexivity|]. cbn [seq List.map]. f_equal. rewrite <- IH. f_equal. lia.
Qed.
Lemma one_chosen m network : (exists x, chosen network x = m) -> chosen network m = m.
Proof. intros [x H]. unfold chosen in *. destruct network as [[|y r]|]; auto. Qed.
Lemma select_chosen self network : In (chosen network (s_network self)) (s_networks self) -> select_network self network = Ok (chosen network (s_network self)).
Proof. intros H. rewrite (chosen_select self network _ eq_refl). rewrite (proj2 (str_in_spec _ _) H). reflexivity. Qed.

(** A known name is looked up in the table as it is at the time of the call: the
    call does what it would do, in a process that had done nothing else, on an
    object of a class whose table has just that entry. *)
Theorem C73_used : forall P source cs h1 k n0 h2 o h3 w a, prims_ok P -> entry cs h1 k n0 <> None -> object_of o = Some (makes h1) ->
  let i := makes h1 in let h := h1 ++ Make k n0 :: h2 in
  let m := chosen (network_arg o) (network_attr i h2 n0) in
  In m (networks_attr i h2 (names cs h1 k)) ->
  entry cs h (coin_attr i h2 k) m = Some (w, a) -> 0 <= w -> 0 <= a ->
  exists d b r, nth_error (wtrace P source cs (h ++ Call o :: h3)) (List.length h) = Some (b, WCall r) /\
                result_with P (fun j => source (d + j)%nat) m w a o = Some (b, r).
Proof.
  intros P source cs h1 k n0 h2 o h3 w a HP HE HO i h m HI HG Hw Ha. rewrite wtrace_nth. destruct (object_at P source cs h1 k n0 h2 HE) as (ob & O & E1 & E2 & E3).
  fold i h in O. assert (G : forall k m, dict_get m (c_networks (classes (fst (wrun P source (fresh cs) h)) k)) = entry cs h k m) by apply (entry_run P source h (fresh cs)).
  set (W := fst (wrun P source (fresh cs) h)) in *. apply snapshot_nth in O. rewrite call_snd. fold i in E1, E2, E3.
  set (self := {| s_cryptocurrency := classes W (o_class ob); s_networks := o_networks ob; s_network := o_network ob; s_alphabet := o_alphabet ob |}) in O.
  assert (Em : m = chosen (network_arg o) (s_network self)) by (unfold m; rewrite <- E3; reflexivity).
  assert (N : net_sel self (network_arg o) m w a).
  { constructor; trivial.
    - rewrite Em. apply select_chosen. rewrite <- Em. cbn [self s_networks]. rewrite E2. exact HI.
    - cbn [self s_cryptocurrency]. rewrite G, E1. exact HG. }
  exists (used W). rewrite (result_with_eq _ _ _ _ _ _ _ HO).
  set (self' := {| s_cryptocurrency := one_entry m w a; s_networks := [m]; s_network := m; s_alphabet := Bitcoin_ALPHABET |}).
  assert (N' : net_sel self' (network_arg o) m w a).
  { assert (C : chosen (network_arg o) m = m) by (apply one_chosen; eexists; symmetry; exact Em). constructor; trivial.
    - rewrite (select_chosen self'); cbn [self' s_network s_networks]; rewrite C; [reflexivity|left; reflexivity].
    - cbn [self' s_cryptocurrency one_entry c_networks dict_get]. rewrite (proj2 (str_eqb_spec m m) eq_refl). reflexivity. }
  destruct o as [c n|pw l q salt|j wf p n|j c t seed n|j p c n d|j e p n d]; cbn in HO; try discriminate; assert (j = i) by (unfold i; congruence); subst j; cbn [network_arg] in N, N'; cbn [exec on_first]; unfold with_object; rewrite O; cbn [objects nth_error].
  - cbn [fst snd]. eexists _, _. split; [reflexivity|]. rewrite (encrypt_eq P HP _ _ _ _ _ _ _ N), (encrypt_eq P HP _ _ _ _ _ _ _ N'). reflexivity.
  - rewrite (ns_sel _ _ _ _ _ N), (ns_sel _ _ _ _ _ N'). destruct (truthy seed); cbn [fst snd].
    + eexists _, _. split; [reflexivity|]. rewrite (create_eq P HP _ _ _ _ _ _ _ _ _ N), (create_eq P HP _ _ _ _ _ _ _ _ _ N'). reflexivity.
    + eexists _, _. split; [reflexivity|]. unfold urandom. cbn [taken snapshot]. rewrite <- urandom_shift.
      rewrite (create_eq P HP _ _ _ _ _ _ _ _ _ N), (create_eq P HP _ _ _ _ _ _ _ _ _ N'). reflexivity.
  - cbn [fst snd]. eexists _, _. split; [reflexivity|]. rewrite (confirm_prefixes P _ _ _ _ _ _ _ _ _ _ _ _ HP N N'). reflexivity.
  - cbn [fst snd]. eexists _, _. split; [reflexivity|]. rewrite (decrypt_prefixes P _ _ _ _ _ _ _ _ _ _ _ HP N N'). reflexivity.
Qed.

(** ** A known name whose entry is gone *)
(** The first run stops with KeyError, or both with the same exception. *)
Definition cut {A} (r r' : res A) : Prop := r = Raise (Builtin KeyError) \/ exists e, r = Raise e /\ r' = Raise e.
Lemma cut_bind {A B} (x : res B) (f f' : B -> res A) : (forall v, cut (f v) (f' v)) -> cut (bind x f) (bind x f').
Proof. intros H. destruct x as [v|e]; cbn [bind]; [apply H|right; exists e; auto]. Qed.
Lemma cut_raise {A} e : @cut A (Raise e) (Raise e).
Proof. right. exists e. auto. Qed.
Lemma cut_key {A} (r : res A) : cut (Raise (Builtin KeyError)) r.
Proof. left. reflexivity. Qed.
Lemma cut_not_one_of {A} msg z z' b : @cut A (raise_not_one_of msg z z' b) (raise_not_one_of msg z z' b).
Proof. unfold raise_not_one_of. repeat (apply cut_bind; intros ?). apply cut_raise. Qed.
Section Missing.
Variable P : prims.
Variables self self' : bip38.
Variable m : pystr.
Hypothesis HM : dict_get m (c_networks (s_cryptocurrency self)) = None.
Lemma no_address pk t : address_of P self m pk t = Raise (Builtin KeyError).
Proof. unfold address_of, address_prefix_of. rewrite HM. reflexivity. Qed.
Ltac cut_step := match goal with
  | |- cut (bind (address_of P self m _ _) _) _ => rewrite no_address; cbn [bind]; apply cut_key
  | |- cut (bind _ _) (bind _ _) => apply cut_bind; intros ?
  | |- cut (raise_not_one_of _ _ _ _) _ => apply cut_not_one_of
  | |- cut (Raise _) (Raise _) => apply cut_raise
  | |- cut (if ?b then _ else _) _ => destruct b
  | |- cut (match ?x with pair _ _ => _ end) _ => destruct x
  | |- cut (let _ := _ in _) _ => cbv zeta
  end.
Lemma no_encrypt wif pw network : select_network self network = Ok m -> encrypt P self wif pw network = Raise (Builtin KeyError).
Proof. intros S. unfold encrypt. rewrite S. cbn [bind]. unfold get_wif_type, wif_prefix_of. rewrite HM. reflexivity. Qed.
Lemma cut_create random code t seed network : select_network self network = Ok m -> select_network self' network = Ok m ->
  cut (create_new_encrypted_wif P random self code t seed network) (create_new_encrypted_wif P random self' code t seed network).
Proof. intros S S'. unfold create_new_encrypted_wif. rewrite S, S'. cbn [bind]. repeat cut_step. Qed.
Lemma cut_confirm pw code network detail : select_network self network = Ok m -> select_network self' network = Ok m ->
  cut (confirm_code P self pw code network detail) (confirm_code P self' pw code network detail).
Proof. intros S S'. unfold confirm_code. rewrite S, S'. cbn [bind]. repeat cut_step. Qed.
Lemma cut_no_ec d pw detail : cut (decrypt_no_ec P self d pw m detail) (decrypt_no_ec P self' d pw m detail).
Proof. unfold decrypt_no_ec. repeat cut_step. Qed.
Lemma cut_ec d pw detail : cut (decrypt_ec P self d pw m detail) (decrypt_ec P self' d pw m detail).
Proof. unfold decrypt_ec. repeat cut_step. Qed.
Lemma cut_decrypt s pw network detail : select_network self network = Ok m -> select_network self' network = Ok m ->
  cut (decrypt P self s pw network detail) (decrypt P self' s pw network detail).
Proof.
  intros S S'. unfold decrypt. rewrite S, S'. cbn [bind]. repeat (first [apply cut_no_ec | apply cut_ec | cut_step]).
Qed.
End Missing.
Lemma cut_raised {A} (r r' : res A) (f : res A -> outcome) : (forall e, raised (f (Raise e)) = Some e) -> cut r r' ->
  raised (f r) = Some (Builtin KeyError) \/ exists e, raised (f r) = Some e /\ raised (f r') = Some e.
Proof. intros H [->|(e & -> & ->)]; rewrite !H; eauto. Qed.

(** A known name that is no longer in the table: no method returns.  encrypt
    raises KeyError; the others raise KeyError, or before that an exception they
    would raise for any prefixes. *)
Theorem C73_missing : forall P source cs h1 k n0 h2 o h3, entry cs h1 k n0 <> None -> object_of o = Some (makes h1) ->
  let i := makes h1 in let h := h1 ++ Make k n0 :: h2 in
  let m := chosen (network_arg o) (network_attr i h2 n0) in
  In m (networks_attr i h2 (names cs h1 k)) ->
  entry cs h (coin_attr i h2 k) m = None ->
  exists d b r, nth_error (wtrace P source cs (h ++ Call o :: h3)) (List.length h) = Some (b, WCall r) /\
    match o with Encrypt _ _ _ _ => raised r = Some (Builtin KeyError) | _ => True end /\
    forall w a, exists r', result_with P (fun j => source (d + j)%nat) m w a o = Some (b, r') /\
      (raised r = Some (Builtin KeyError) \/ exists e, raised r = Some e /\ raised r' = Some e).
Proof.
  intros P source cs h1 k n0 h2 o h3 HE HO i h m HI HG. rewrite wtrace_nth. destruct (object_at P source cs h1 k n0 h2 HE) as (ob & O & E1 & E2 & E3).
  fold i h in O. assert (G : forall k m, dict_get m (c_networks (classes (fst (wrun P source (fresh cs) h)) k)) = entry cs h k m) by apply (entry_run P source h (fresh cs)).
  set (W := fst (wrun P source (fresh cs) h)) in *. apply snapshot_nth in O. rewrite call_snd. fold i in E1, E2, E3.
  set (self := {| s_cryptocurrency := classes W (o_class ob); s_networks := o_networks ob; s_network := o_network ob; s_alphabet := o_alphabet ob |}) in O.
  assert (Em : m = chosen (network_arg o) (s_network self)) by (unfold m; rewrite <- E3; reflexivity).
  assert (S : select_network self (network_arg o) = Ok m).
  { rewrite Em. apply select_chosen. rewrite <- Em. cbn [self s_networks]. rewrite E2. exact HI. }
  assert (HM : dict_get m (c_networks (s_cryptocurrency self)) = None).
  { cbn [self s_cryptocurrency]. rewrite G, E1. exact HG. }
  exists (used W).
  assert (RW : forall w a, let self' := {| s_cryptocurrency := one_entry m w a; s_networks := [m]; s_network := m; s_alphabet := Bitcoin_ALPHABET |} in
     result_with P (fun j => source (used W + j)%nat) m w a o = Some (snd (exec P (fun j => source (used W + j)%nat) {| objects := [Ok self']; taken := 0 |} (on_first o))) /\
     select_network self' (network_arg o) = Ok m).
  { intros w a self'. split; [apply (result_with_eq _ _ _ _ _ _ _ HO)|].
    assert (C : chosen (network_arg o) m = m) by (apply one_chosen; eexists; symmetry; exact Em).
    rewrite (select_chosen self'); cbn [self' s_network s_networks]; rewrite C; [reflexivity|left; reflexivity]. }
  destruct o as [c n|pw l q salt|j wf p n|j c t seed n|j p c n d|j e p n d]; cbn in HO; try discriminate; assert (j = i) by (unfold i; congruence); subst j; cbn [network_arg] in S, RW;
    cbn [exec on_first] in *; unfold with_object in *; rewrite O; cbn [objects nth_error] in RW.
  - cbn [fst snd]. eexists _, _. split; [reflexivity|]. rewrite (no_encrypt _ _ _ HM _ _ _ S). split; [reflexivity|].
    intros w a. destruct (RW w a) as [-> _]. cbn [snd]. eexists. split; [reflexivity|]. left. reflexivity.
  - rewrite S. destruct (truthy seed) eqn:T; cbn [fst snd].
    + eexists _, _. split; [reflexivity|]. split; [exact I|]. intros w a. destruct (RW w a) as [-> S']. rewrite S'. cbn [snd]. eexists. split; [reflexivity|].
      apply (cut_raised _ _ OCreate); [reflexivity|]. apply (cut_create P self _ m HM); assumption.
    + eexists _, _. split; [reflexivity|]. split; [exact I|]. intros w a. destruct (RW w a) as [-> S']. rewrite S'. cbn [snd]. 
      unfold urandom. cbn [taken snapshot]. rewrite <- urandom_shift. eexists. split; [reflexivity|].
      apply (cut_raised _ _ OCreate); [reflexivity|]. apply (cut_create P self _ m HM); assumption.
  - cbn [fst snd]. eexists _, _. split; [reflexivity|]. split; [exact I|]. intros w a. destruct (RW w a) as [-> S']. cbn [snd]. eexists. split; [reflexivity|].
    apply (cut_raised _ _ OConfirm); [reflexivity|]. apply (cut_confirm P self _ m HM); assumption.
  - cbn [fst snd]. eexists _, _. split; [reflexivity|]. split; [exact I|]. intros w a. destruct (RW w a) as [-> S']. cbn [snd]. eexists. split; [reflexivity|].
    apply (cut_raised _ _ ODecrypt); [reflexivity|]. apply (cut_decrypt P self _ m HM); assumption.
Qed.

(** ** The rest of the process *)
(** A constructor call that raised left no object. *)
Lemma unmade_step P source W o i e : nth_error (objs W) i = Some (Raise e) -> nth_error (objs (fst (wexec P source W o))) i = Some (Raise e).
Proof.
  intros H. assert (S : forall j f, nth_error (objs (fst (set_object W j f))) i = Some (Raise e)).
  { intros j f. unfold set_object. destruct (nth_error (objs W) j) as [[x|]|] eqn:J; try exact H. cbn [fst objs].
    rewrite set_nth_other; [exact H|]. intros ->. congruence. }
  destruct o; cbn [wexec]; try apply S; try exact H.
  - cbn [fst objs]. rewrite nth_error_app1; [exact H|]. apply nth_error_Some. rewrite H. discriminate.
  - destruct (exec P source (snapshot W) o); exact H.
  - unfold at_item. destruct (dict_get _ _); exact H.
  - unfold at_item. destruct (dict_get _ _); exact H.
  - unfold at_item. destruct (dict_get _ _); exact H.
Qed.
Lemma unmade_run P source i e : forall h W, nth_error (objs W) i = Some (Raise e) -> nth_error (objs (fst (wrun P source W h))) i = Some (Raise e).
Proof. induction h as [|o h IH]; intros W H; [exact H|]. rewrite wrun_cons. cbn [fst]. apply IH, unmade_step, H. Qed.
Theorem C73_unmade : forall P source cs h1 k n0 h2 o h3, entry cs h1 k n0 = None -> object_of o = Some (makes h1) ->
  let h := h1 ++ Make k n0 :: h2 in
  nth_error (wtrace P source cs (h ++ Call o :: h3)) (List.length h) = Some ([], WCall ONoObject).
Proof.
  intros P source cs h1 k n0 h2 o h3 H HO h. rewrite wtrace_nth.
  assert (O : exists e, nth_error (objs (fst (wrun P source (fresh cs) h))) (makes h1) = Some (Raise e)).
  { unfold h. rewrite wrun_app, wrun_cons. cbn [fst]. set (W := fst (wrun P source (fresh cs) h1)).
    assert (NI : ~ In n0 (names cs h1 k)) by (rewrite <- (entry_names P source (fresh cs)); cbn [classes fresh]; congruence).
    assert (N : List.map fst (c_networks (classes W k)) = names cs h1 k) by apply (names_run P source h1 (fresh cs)).
    assert (L : List.length (objs W) = makes h1) by (subst W; rewrite objs_length; reflexivity).
    eexists. apply unmade_run. cbn [wexec fst objs]. rewrite nth_error_app2, L, Nat.sub_diag by lia. cbn [nth_error]. rewrite init_names, N.
    destruct (str_in n0 _) eqn:I; [apply str_in_spec in I; contradiction|]. reflexivity. }
  destruct O as [e O]. rewrite call_snd.
  assert (O' : nth_error (objects (snapshot (fst (wrun P source (fresh cs) h)))) (makes h1) = Some (Raise e)) by (unfold snapshot; cbn [objects]; rewrite nth_error_map, O; reflexivity).
  destruct o as [c n|pw l q salt|j w p n|j c t seed n|j p c n d|j e' p n d]; cbn in HO; try discriminate; assert (j = makes h1) by congruence; subst j;
    cbn [exec]; unfold with_object; rewrite O'; reflexivity.
Qed.
(** Statements on tables: those that look up an entry raise KeyError exactly if
    there is none, and then change nothing. *)
Theorem C73_statement : forall P source cs h1 h2 k m,
  (forall w a, nth_error (wtrace P source cs (h1 ++ Put k m w a :: h2)) (List.length h1) = Some ([], WStatement None)) /\
  forall o, o = Del k m \/ (exists w, o = PutWif k m w) \/ (exists a, o = PutAddress k m a) ->
    nth_error (wtrace P source cs (h1 ++ o :: h2)) (List.length h1) =
      Some ([], WStatement match entry cs h1 k m with Some _ => None | None => Some (Builtin KeyError) end) /\
    (entry cs h1 k m = None ->
      forall j, nth_error (wtrace P source cs (h1 ++ o :: h2)) (List.length h1 + S j) = nth_error (wtrace P source cs (h1 ++ h2)) (List.length h1 + j)).
Proof.
  intros P source cs h1 h2 k m. split; [intros w a; rewrite wtrace_nth; reflexivity|].
  set (W := fst (wrun P source (fresh cs) h1)).
  assert (G : dict_get m (c_networks (classes W k)) = entry cs h1 k m) by apply (entry_run P source h1 (fresh cs)).
  assert (A : forall o f, (forall V, wexec P source V o = at_item V k m (f V)) ->
    snd (wexec P source W o) = ([], WStatement match entry cs h1 k m with Some _ => None | None => Some (Builtin KeyError) end) /\
    (entry cs h1 k m = None -> fst (wexec P source W o) = W)).
  { intros o f E. rewrite E. unfold at_item. rewrite G. destruct (entry cs h1 k m); split; try reflexivity. discriminate. }
  assert (F : forall o, snd (wexec P source W o) = ([], WStatement match entry cs h1 k m with Some _ => None | None => Some (Builtin KeyError) end) /\
      (entry cs h1 k m = None -> fst (wexec P source W o) = W) ->
    nth_error (wtrace P source cs (h1 ++ o :: h2)) (List.length h1) =
      Some ([], WStatement match entry cs h1 k m with Some _ => None | None => Some (Builtin KeyError) end) /\
    (entry cs h1 k m = None ->
      forall j, nth_error (wtrace P source cs (h1 ++ o :: h2)) (List.length h1 + S j) = nth_error (wtrace P source cs (h1 ++ h2)) (List.length h1 + j))).
  { intros o [E1 E2]. split; [rewrite wtrace_nth; fold W; rewrite E1; reflexivity|]. intros N j. specialize (E2 N). unfold wtrace.
    rewrite !wrun_app, wrun_cons. cbn [snd]. fold W. rewrite E2. rewrite !nth_error_app2; rewrite wrun_length; try lia.
    replace (List.length h1 + S j - List.length h1)%nat with (S j) by lia. replace (List.length h1 + j - List.length h1)%nat with j by lia. reflexivity. }
  intros o H. apply F. destruct H as [-> | [[w ->] | [a ->]]].
  - apply (A (Del k m) (fun V _ => dict_del m (c_networks (classes V k)))). reflexivity.
  - apply (A (PutWif k m w) (fun V v => dict_put m (w, snd v) (c_networks (classes V k)))). reflexivity.
  - apply (A (PutAddress k m a) (fun V v => dict_put m (fst v, a) (c_networks (classes V k)))). reflexivity.
Qed.
(** intermediate_code is a class method and reads no table and no attribute. *)
Theorem C73_intermediate : forall P source cs h1 pw lot sequence salt h2,
  exists d b r, nth_error (wtrace P source cs (h1 ++ Call (Intermediate pw lot sequence salt) :: h2)) (List.length h1) = Some (b, WCall r) /\
    nth_error (trace P (fun j => source (d + j)%nat) [Intermediate pw lot sequence salt]) 0 = Some (b, r).
Proof.
  intros P source cs h1 pw lot sequence salt h2. rewrite wtrace_nth. set (W := fst (wrun P source (fresh cs) h1)). exists (used W). rewrite call_snd.
  unfold trace. cbn [run exec]. destruct (truthy salt); cbn [fst snd nth_error]; (eexists _, _; split; [reflexivity|]); [reflexivity|].
  unfold urandom. cbn [taken snapshot initial]. rewrite <- urandom_shift. reflexivity.
Qed.
(** What is done to other classes and other objects has no effect on a call. *)
Definition leaves_class (k : nat) (o : wop) : Prop :=
  match o with Put k' _ _ _ | PutWif k' _ _ | PutAddress k' _ _ | Del k' _ => k' <> k | _ => True end.
Definition leaves_object (i : nat) (o : wop) : Prop :=
  match o with SetNetwork j _ | SetNetworks j _ | SetCoin j _ => j <> i | _ => True end.
Lemma classes_other P source W o k : leaves_class k o -> classes (fst (wexec P source W o)) k = classes W k.
Proof.
  intros H. pose proof (classes_frame P source W o) as F. destruct o; try (rewrite F; reflexivity); clear F; cbn [wexec leaves_class] in *;
    try unfold at_item; try destruct (dict_get _ _); cbn [fst set_table classes]; try reflexivity;
    destruct (Nat.eqb k k0) eqn:E; try reflexivity; apply Nat.eqb_eq in E; congruence.
Qed.
Lemma classes_others P source k : forall h W, Forall (leaves_class k) h -> classes (fst (wrun P source W h)) k = classes W k.
Proof.
  induction h as [|o h IH]; intros W F; [reflexivity|]. inversion F; subst. rewrite wrun_cons. cbn [fst]. rewrite IH by assumption. apply classes_other. assumption.
Qed.
Lemma attrs_others i : forall h ob, Forall (leaves_object i) h -> attrs i h ob = ob.
Proof.
  induction h as [|o h IH]; intros ob F; [destruct ob; reflexivity|]. inversion F as [|? ? H F']; subst.
  change (attrs i (o :: h) ob) with (attrs i h (attrs i [o] ob)). rewrite IH by assumption.
  unfold attrs, coin_attr, networks_attr, network_attr. destruct ob. cbn [fold_left Worlds.o_class Worlds.o_networks Worlds.o_network Worlds.o_alphabet].
  destruct o; cbn [leaves_object] in H; try reflexivity; destruct (Nat.eqb i0 i) eqn:E; try reflexivity; apply Nat.eqb_eq in E; congruence.
Qed.
Lemma exec_state P source source' s o : fst (exec P source s o) = fst (exec P source' s o).
Proof.
  destruct o as [c n|pw l q salt|i w p n|i c t seed n|i p c n d|i e p n d]; cbn [exec]; try reflexivity.
  - destruct (truthy salt); reflexivity.
  - unfold with_object. destruct (nth_error _ i) as [[self|]|]; try reflexivity. destruct (select_network self n); [|reflexivity]. destruct (truthy seed); reflexivity.
Qed.
Lemma wexec_state P source source' W o : fst (wexec P source W o) = fst (wexec P source' W o).
Proof.
  destruct o; try reflexivity. cbn [wexec]. pose proof (exec_state P source source' (snapshot W) o) as E.
  destruct (exec P source (snapshot W) o), (exec P source' (snapshot W) o). cbn [fst] in *. subst. reflexivity.
Qed.
Lemma wrun_state P source source' : forall h W, fst (wrun P source W h) = fst (wrun P source' W h).
Proof. induction h as [|o h IH]; intros W; [reflexivity|]. rewrite !wrun_cons. cbn [fst]. rewrite (wexec_state P source source'). apply IH. Qed.
Lemma same_object P source cs h1 k n0 h2 h : entry cs h1 k n0 <> None ->
  let i := makes h1 in let g := h1 ++ Make k n0 :: h2 in
  Forall (leaves_class (coin_attr i h2 k)) h -> Forall (leaves_object i) h ->
  nth_error (objects (snapshot (fst (wrun P source (fresh cs) (g ++ h))))) i = nth_error (objects (snapshot (fst (wrun P source (fresh cs) g)))) i.
Proof.
  intros HE i g HC HO. destruct (object_at P source cs h1 k n0 h2 HE) as (ob & O & E1 & _). fold i g in O, E1.
  rewrite wrun_app. cbn [fst]. set (W := fst (wrun P source (fresh cs) g)) in *.
  pose proof (attrs_run P source i h W ob O) as O'. rewrite attrs_others in O' by exact HO.
  rewrite (snapshot_nth _ _ _ O), (snapshot_nth _ _ _ O'). rewrite classes_others; [reflexivity|]. rewrite E1. exact HC.
Qed.
Theorem C73_isolation : forall P source cs h1 k n0 h2 h o h3 h3', entry cs h1 k n0 <> None -> object_of o = Some (makes h1) ->
  let i := makes h1 in let g := h1 ++ Make k n0 :: h2 in
  Forall (leaves_class (coin_attr i h2 k)) h -> Forall (leaves_object i) h ->
  let result source l h3 := nth_error (wtrace P source cs (l ++ Call o :: h3)) (List.length l) in
  (exists source', result source (g ++ h) h3 = result source' g h3') /\
  (~ wants_random o -> result source (g ++ h) h3 = result source g h3').
Proof.
  intros P source cs h1 k n0 h2 h o h3 h3' HE HO i g HC HL result.
  assert (R : forall source', (forall n, List.map source (seq (used (fst (wrun P source (fresh cs) (g ++ h)))) n) =
                                         List.map source' (seq (used (fst (wrun P source (fresh cs) g))) n)) \/ ~ wants_random o ->
     result source (g ++ h) h3 = result source' g h3').
  { intros source' U. unfold result. rewrite !wtrace_nth, !call_snd. rewrite (wrun_state P source' source g).
    pose proof (same_object P source cs h1 k n0 h2 h HE HC HL) as SO. fold i g in SO.
    set (s := snapshot (fst (wrun P source (fresh cs) (g ++ h)))) in *. set (s' := snapshot (fst (wrun P source (fresh cs) g))) in *.
    assert (E : snd (exec P source s o) = snd (exec P source' s' o)).
    { destruct U as [U|U].
      - apply exec_same; trivial. intros j j' J J'. assert (j = i) by (unfold i; congruence). assert (j' = i) by (unfold i; congruence). subst j j'. exact SO.
      - clear -HO SO U. clearbody s s'. destruct o as [c n|pw l q salt|j w p n|j c t seed n|j p c n d|j e' p n d]; cbn in HO; try discriminate; assert (j = i) by (unfold i; congruence); subst j;
          cbn [exec]; unfold with_object; rewrite SO; destruct (nth_error (objects s') i) as [[self|]|]; try reflexivity.
        destruct (select_network self n); [|reflexivity]. cbn [wants_random] in U. rewrite <- truthy_false in U. destruct (truthy seed); [reflexivity|congruence]. }
    rewrite E. reflexivity. }
  split; [|intros W; apply R; right; exact W].
  set (d := used (fst (wrun P source (fresh cs) (g ++ h)))). set (d' := used (fst (wrun P source (fresh cs) g))).
  exists (fun j => source (d + (j - d'))%nat). apply R. left. intros n. fold d d'. rewrite (urandom_shift source d), (urandom_shift _ d').
  apply map_ext. intros j. f_equal. lia.
Qed.
(** Every random byte is used once here too. *)
Lemma wrun_used P source : forall h W, List.concat (List.map fst (snd (wrun P source W h))) = List.map source (seq (used W) (used (fst (wrun P source W h)) - used W)) /\
  (used W <= used (fst (wrun P source W h)))%nat.
Proof.
  induction h as [|o h IH]; intros W; [cbn; rewrite Nat.sub_diag; split; [reflexivity|lia]|].
  rewrite wrun_cons. cbn [fst snd List.map List.concat]. specialize (IH (fst (wexec P source W o))).
  assert (S : fst (snd (wexec P source W o)) = List.map source (seq (used W) (used (fst (wexec P source W o)) - used W)) /\ (used W <= used (fst (wexec P source W o)))%nat).
  { assert (Z : forall V (x : bytes * woutcome), used V = used W -> fst (snd (V, x)) = [] -> fst (snd (V, x)) = List.map source (seq (used W) (used (fst (V, x)) - used W)) /\ (used W <= used (fst (V, x)))%nat).
    { intros V x E F. cbn [fst snd] in *. rewrite F. cbn [fst]. rewrite E, Nat.sub_diag. split; [reflexivity|lia]. }
    destruct o; cbn [wexec]; try (apply Z; reflexivity).
    - pose proof (exec_taken P source (snapshot W) o) as [E L]. destruct (exec P source (snapshot W) o) as [s x]. exact (conj E L).
    - unfold at_item. destruct (dict_get _ _); apply Z; reflexivity.
    - unfold at_item. destruct (dict_get _ _); apply Z; reflexivity.
    - unfold at_item. destruct (dict_get _ _); apply Z; reflexivity.
    - unfold set_object. destruct (nth_error _ i) as [[|]|]; apply Z; reflexivity.
    - unfold set_object. destruct (nth_error _ i) as [[|]|]; apply Z; reflexivity.
    - unfold set_object. destruct (nth_error _ i) as [[|]|]; apply Z; reflexivity. }
  destruct S as [E L], IH as [I L']. split; [|lia]. set (W1 := fst (wexec P source W o)) in *. set (W2 := fst (wrun P source W1 h)) in *.
  rewrite E, I. replace (used W2 - used W)%nat with ((used W1 - used W) + (used W2 - used W1))%nat by lia.
  rewrite seq_map_split. do 3 f_equal. lia.
Qed.
Theorem C73_each_byte_once : forall P source cs h,
  let taken := List.concat (List.map fst (wtrace P source cs h)) in taken = List.map source (seq 0 (List.length taken)).
Proof.
  intros P source cs h. cbv zeta. unfold wtrace. destruct (wrun_used P source h (fresh cs)) as [E _]. cbn [used fresh] in E.
  rewrite E at 1. f_equal. f_equal. rewrite E, map_length, seq_length. reflexivity.
Qed.
(** Without changes the process is that of C65 and C66. *)
Definition unchanged (cs : nat -> coin) (o : wop) : option op :=
  match o with
  | Make k n => Some (New (CoinClass (cs k)) n)
  | Call (New _ _) => None
  | Call o => Some o
  | _ => None
  end.
Theorem C73_unchanged : forall P source cs h h', List.map (unchanged cs) h = List.map Some h' ->
  wtrace P source cs h = List.map (fun x => (fst x, WCall (snd x))) (trace P source h').
Proof.
  intros P source cs h h' H. unfold wtrace, trace.
  assert (A : forall h h' W, List.map (unchanged cs) h = List.map Some h' -> classes W = cs ->
    snd (wrun P source W h) = List.map (fun x => (fst x, WCall (snd x))) (snd (run P source (snapshot W) h'))).
  { clear. induction h as [|o h IH]; intros [|o' h'] W H C; cbn [List.map] in H; try discriminate; [reflexivity|].
    injection H as H1 H2. rewrite wrun_cons. cbn [snd run].
    assert (S : snapshot (fst (wexec P source W o)) = fst (exec P source (snapshot W) o') /\ classes (fst (wexec P source W o)) = cs /\
       snd (wexec P source W o) = (fst (snd (exec P source (snapshot W) o')), WCall (snd (snd (exec P source (snapshot W) o'))))).
    { destruct o as [k n|o|k m w a|k m w|k m a|k m|i n|i l|i k]; cbn [unchanged] in H1; try discriminate.
      - assert (o' = New (CoinClass (cs k)) n) by congruence. subst o'. cbn [wexec exec fst snd]. unfold snapshot at 1. cbn [objs used classes]. rewrite map_app. cbn [List.map].
        clear IH H2 H1. subst cs. unfold now at 2. destruct (bip38_init (CoinClass (classes W k)) n) as [self|e] eqn:B; [|repeat split; reflexivity].
        repeat split. unfold snapshot. cbn [objects taken]. do 3 f_equal. cbn [classes o_class o_networks o_network o_alphabet].
        destruct (C32_constructor (classes W k) n self) as [X _]. destruct (X B) as (_ & E & _). rewrite <- E. destruct self; reflexivity.
      - assert (E : o' = o /\ match o with New _ _ => False | _ => True end) by (destruct o; split; congruence || trivial; discriminate). destruct E as [-> NN].
        split; [|split; [|apply call_snd]].
        + cbn [wexec]. pose proof (exec_objects P source (snapshot W) o) as EO. assert (CR : creations [o] = []) by (destruct o; [destruct NN|reflexivity..]).
          rewrite CR in EO. cbn [List.map] in EO. rewrite app_nil_r in EO. destruct (exec P source (snapshot W) o) as [s x]. cbn [fst] in *. unfold snapshot.
          cbn [objs used classes]. destruct s as [ob t]. cbn [objects taken] in *. rewrite EO. reflexivity.
        + cbn [wexec]. destruct (exec P source (snapshot W) o). exact C. }
    destruct S as (S1 & S2 & S3). rewrite S3, (IH h' _ H2 S2), S1. destruct (exec P source (snapshot W) o') as [s1 x]. cbn [fst snd].
    destruct (run P source s1 h') as [s2 l]. reflexivity. }
  rewrite (A h h' (fresh cs) H eq_refl). reflexivity.
Qed.

(** ** The hypotheses are met *)
(** Bitcoin's table is class 0.  A BIP38(Bitcoin, "mainnet") object is made; then
    the prefixes of mainnet are changed, "custom" is added and "regtest" is
    removed. *)
Definition bitcoin_classes (k : nat) : coin := coin_Bitcoin.
Definition changes : list wop :=
  [Put 0 (str "custom") 5 6; PutWif 0 (str "mainnet") 0xef; PutAddress 0 (str "mainnet") 0x6f; Del 0 (str "regtest"); Put 1 (str "mainnet") 1 1].
Example C73_met : let known := networks_attr 0 changes (names bitcoin_classes [] 0) in let h := [] ++ Make 0 (str "mainnet") :: changes in
  entry bitcoin_classes [] 0 (str "mainnet") <> None /\
  (** used: mainnet's new prefixes *)
  In (chosen None (network_attr 0 changes (str "mainnet"))) known /\ entry bitcoin_classes h (coin_attr 0 changes 0) (str "mainnet") = Some (0xef, 0x6f) /\
  (** refused: the new name *)
  ~ In (str "custom") known /\ entry bitcoin_classes h 0 (str "custom") = Some (5, 6) /\
  (** missing: the removed name *)
  In (str "regtest") known /\ entry bitcoin_classes h 0 (str "regtest") = None /\
  (** unless the object's attributes are set *)
  In (str "custom") (networks_attr 0 (changes ++ [SetNetworks 0 [str "custom"]]) (names bitcoin_classes [] 0)) /\
  names bitcoin_classes h 0 = [str "mainnet"; str "testnet"; str "custom"].
Proof. vm_compute. intuition (discriminate || congruence). Qed.
(** A call that returns: an object for testnet decrypts a mainnet key once
    testnet has mainnet's prefixes. *)
Example C73_run : forall source, exists e d,
  nth_error (wtrace toy source bitcoin_classes
    [Make 0 (str "testnet"); PutWif 0 (str "testnet") 0x80; PutAddress 0 (str "testnet") 0; Call (Decrypt 0 e (str "TestingOneTwoThree") None true)]) 3 =
  Some ([], WCall (ODecrypt (Ok (DDetail d)))).
Proof.
  intros source. destruct C16_example as (e & x & D & _). exists e, x.
  destruct (C73_used toy source bitcoin_classes [] 0 (str "testnet") [PutWif 0 (str "testnet") 0x80; PutAddress 0 (str "testnet") 0]
    (Decrypt 0 e (str "TestingOneTwoThree") None true) [] 0x80 0 toy_ok) as (d & b & r & T & R); try reflexivity; try discriminate.
  - right. left. reflexivity.
  - cbn [app List.length] in T. rewrite T. clear T. change (chosen _ _) with (str "testnet") in R.
    rewrite (result_with_eq toy _ (str "testnet") 0x80 0 (Decrypt 0 e (str "TestingOneTwoThree") None true) 0 eq_refl) in R. cbn [on_first exec] in R.
    unfold with_object in R. cbn [objects nth_error snd] in R.
    set (self := {| s_cryptocurrency := _; s_networks := _; s_network := _; s_alphabet := _ |}) in R.
    assert (N : decrypt toy btc e (str "TestingOneTwoThree") None true = decrypt toy self e (str "TestingOneTwoThree") None true).
    { destruct (session_net_sel _ _ _ _ btc_session) as (n & N). apply (decrypt_prefixes toy _ _ _ _ _ (str "testnet") 0x80 0 _ _ _ toy_ok N).
      constructor; try reflexivity; lia. }
    rewrite D in N. rewrite <- N in R. inversion R. reflexivity.
Qed.
