(** * Sessions: facts about SpecSession. *)
From Coq Require Import Lia.
From Verif Require Import Exceptions Spec ErrorFacts Py Prims PyFacts Cryptocurrencies Wif Bip38 SpecSession CodecFacts2 Bip38Facts.
Lemma init_inv c n0 self : bip38_init (CoinClass c) n0 = Ok self ->
  s_cryptocurrency self = c /\ s_networks self = List.map fst (c_networks c) /\ s_network self = n0 /\ In n0 (List.map fst (c_networks c)).
Proof.
  unfold bip38_init. destruct (str_in n0 (List.map fst (c_networks c))) eqn:E; cbn [negb]; [|discriminate].
  intros H. injection H as <-. cbn. apply str_in_spec in E. auto.
Qed.
Lemma chosen_select self network n0 : s_network self = n0 ->
  select_network self network = if str_in (chosen network n0) (s_networks self) then Ok (chosen network n0)
                                else Raise (lib_error CNetworkError (str "Wrong network type") None (ExpList (s_networks self)) (str "<class 'str'>")).
Proof. intros <-. unfold select_network, chosen. destruct network as [[|x r]|]; destruct (str_in _ _); reflexivity. Qed.
(** the text of the error for an unknown network *)
Definition network_error (nets : list pystr) : exn :=
  Lib CNetworkError (error_text "Wrong network type" (quoted_list nets) (str "<class 'str'>")).
Lemma select_error self network n0 : s_network self = n0 -> s_networks self <> [] -> ~ In (chosen network n0) (s_networks self) ->
  select_network self network = Raise (network_error (s_networks self)).
Proof.
  intros E NE NI. rewrite (chosen_select self network n0 E). destruct (str_in _ _) eqn:X; [apply str_in_spec in X; contradiction|].
  rewrite lib_error_list by exact NE. reflexivity.
Qed.
Lemma dict_get_key {A} n (d : list (pystr * A)) v : dict_get n d = Some v -> In n (List.map fst d).
Proof. intros H. apply dict_get_in in H. apply (in_map fst) in H. exact H. Qed.
Lemma session_net_sel self network w a : session self network w a -> exists n, net_sel self network n w a.
Proof.
  intros (c & n0 & HC & I & D). destruct (init_inv _ _ _ I) as (Ec & En & E0 & _). exists (chosen network n0).
  destruct (HC _ _ _ (dict_get_in _ _ _ D)) as [Hw Ha].
  split; trivial.
  - rewrite (chosen_select self network n0 E0). rewrite En.
    replace (str_in _ _) with true; [reflexivity|]. symmetry. apply str_in_spec, (dict_get_key _ _ _ D).
  - rewrite Ec. exact D.
Qed.
Lemma session_constructed self network w a : session self network w a -> constructed self.
Proof. intros (c & n0 & HC & I & _). exists c, n0. auto. Qed.
(** Every call either has a session or fails at once. *)
Lemma constructed_cases self network : constructed self -> (exists n w a, net_sel self network n w a) \/
  select_network self network = Raise (network_error (s_networks self)).
Proof.
  intros (c & n0 & HC & I). destruct (init_inv _ _ _ I) as (Ec & En & E0 & IN).
  destruct (dict_get (chosen network n0) (c_networks c)) as [[w a]|] eqn:D.
  - left. assert (S : session self network w a) by (exists c, n0; auto). destruct (session_net_sel _ _ _ _ S) as [n N]. eauto.
  - right. apply dict_get_none in D. apply (select_error self network n0 E0); rewrite En; [|exact D].
    intros E. rewrite E in IN. destruct IN.
Qed.
Lemma decrypt_no_net P self s pw network detail e : select_network self network = Raise e -> decrypt P self s pw network detail = Raise e.
Proof. intros H. unfold decrypt. rewrite H. reflexivity. Qed.
Lemma encrypt_no_net P self s pw network e : select_network self network = Raise e -> encrypt P self s pw network = Raise e.
Proof. intros H. unfold encrypt. rewrite H. reflexivity. Qed.
Lemma confirm_no_net P self s pw network detail e : select_network self network = Raise e -> confirm_code P self pw s network detail = Raise e.
Proof. intros H. unfold confirm_code. rewrite H. reflexivity. Qed.
Lemma create_no_net P u self code t seed network e : select_network self network = Raise e -> create_new_encrypted_wif P u self code t seed network = Raise e.
Proof. intros H. unfold create_new_encrypted_wif. rewrite H. reflexivity. Qed.
