(** * C98: the library's exceptions across process borders, pickled or copied
    (exceptions.py). *)
From Coq Require Import Lia.
From Verif Require Import Py PyFacts Exceptions ErrorFacts Crossing.

(** ** What is claimed *)
(** What Python guarantees of None and of text *)
Record laws (L : python) : Prop := {
  law_none : show L VNone = str "None" /\ truth L VNone = false /\ carry L VNone = Some VNone;
  law_text : forall s, show L (VText s) = s /\ truth L (VText s) = match s with [] => false | _ => true end /\ carry L (VText s) = Some (VText s)
}.
(** A value that can be pickled, arrives with the same str, repr and truth
    value, and can be sent on (true of None, numbers, text and lists of these):
    it belongs to a family of such values. *)
Definition travels (L : python) (v : value) : Prop :=
  exists family : value -> Prop, family v /\
  forall u, family u -> exists u', carry L u = Some u' /\ family u' /\ show L u' = show L u /\ quoted L u' = quoted L u /\ truth L u' = truth L u.
(** The keywords of [raise C(message, detail=..., expected=..., got=...)], each
    given or not *)
Definition given (name : string) (v : option value) : list (pystr * value) := match v with Some v => [(str name, v)] | None => [] end.
Definition keywords (detail expected got : option value) : list (pystr * value) :=
  given "detail" detail ++ given "expected" expected ++ given "got" got.
(** [expected] is kept as it is unless it is a list *)
Definition kept_expected (expected : option value) : list value :=
  match expected with Some (VList _) | None => [] | Some v => [v] end.
(** What the user sees of an exception: its class, str and repr *)
Definition looks_like (L : python) (x y : object) : Prop :=
  x_class x = x_class y /\ text L x = text L y /\ representation L x = representation L y.
Fixpoint crossed (L : python) (n : nat) (x : object) : res object :=
  match n with O => Ok x | S n => let* y := cross L x in crossed L n y end.
(** The arguments as Exceptions.v takes them *)
Definition as_detail (d : option pystr) : option value := match d with Some s => Some (VText s) | None => None end.
Definition as_expected (L : python) (v : option value) : expected_arg :=
  match v with
  | None | Some VNone => ExpNone
  | Some (VList l) => ExpList (List.map (show L) l)
  | Some v => ExpOther (show L v) (truth L v)
  end.
Definition as_got (L : python) (v : option value) : pystr := show L (or_none v).

(** ** Proofs *)
Lemma travels_step L v : travels L v -> exists v', carry L v = Some v' /\ travels L v' /\ show L v' = show L v /\ quoted L v' = quoted L v /\ truth L v' = truth L v.
Proof. intros (Q & H & C). destruct (C v H) as (v' & E & H' & R). exists v'. split; [exact E|]. split; [exists Q; auto|exact R]. Qed.
Lemma travels_none L : laws L -> travels L VNone.
Proof. intros [(_ & _ & E) _]. exists (fun v => v = VNone). split; [reflexivity|]. intros u ->. exists VNone. auto. Qed.
Lemma travels_text L s : laws L -> travels L (VText s).
Proof. intros [_ H]. destruct (H s) as (_ & _ & E). exists (fun v => v = VText s). split; [reflexivity|]. intros u ->. exists (VText s). auto. Qed.
Lemma carry_all_travels L l : Forall (travels L) l -> exists l', carry_all L l = Some l' /\ Forall (travels L) l' /\
  List.length l' = List.length l /\ List.map (quoted L) l' = List.map (quoted L) l.
Proof.
  induction 1 as [|v l H _ (l' & E' & F' & N' & B')]; [exists []; auto|]. destruct (travels_step _ _ H) as (v' & E & T & _ & B & _).
  exists (v' :: l'). cbn [carry_all List.map List.length]. rewrite E, E', B, N', B'. auto.
Qed.
Lemma expectations_text L : laws L -> forall l s, exists t, expectations L (VText s) l = VText t.
Proof. intros H l. induction l as [|x l IH]; intros s; [eexists; reflexivity|]. cbn [expectations]. apply IH. Qed.
Lemma expectations_fold L : laws L -> forall l s, s <> [] -> exists t, expectations L (VText s) l = VText t /\
  fold_left expected_step (List.map (show L) l) (Some s) = Some t /\ t <> [].
Proof.
  intros H l. induction l as [|x l IH]; intros s N; [exists s; auto|]. cbn [expectations List.map fold_left expected_step].
  destruct H as [H0 HT]. destruct (HT s) as (-> & _ & _). apply IH. intros E. apply app_eq_nil in E. destruct E; contradiction.
Qed.
Lemma expectations_travels L l : laws L -> travels L (expectations L VNone l).
Proof.
  intros H. destruct l as [|x l]; cbn [expectations]; [apply travels_none, H|].
  edestruct (expectations_text L H l) as [t ->]. apply travels_text, H.
Qed.
(** The four attributes of a made exception *)
Lemma make_shape L c pos kw x : make L c pos kw = Ok x ->
  x_class x = c /\ x_args x = pos /\ x_cause x = None /\ binds pos kw = true /\
  x_dict x = [(str "_message", or_none (argument pos kw 0)); (str "_detail", or_none (argument pos kw 1));
     (str "_expected", match or_none (argument pos kw 2) with VList l => expectations L VNone l | v => v end);
     (str "_got", VText (str "'" ++ show L (or_none (argument pos kw 3)) ++ str "'"))].
Proof. unfold make. destruct (binds pos kw); [|discriminate]. intros [= <-]. auto 6. Qed.
Lemma text_shape L x m d e g : x_dict x = [(str "_message", m); (str "_detail", d); (str "_expected", e); (str "_got", g)] ->
  text L x = Ok (if truth L e && truth L g && truth L d then show L m ++ str ", (expected: " ++ show L e ++ str " | got: " ++ show L g ++ str ") " ++ show L d
    else if truth L e && truth L g && negb (truth L d) then show L m ++ str ", (expected: " ++ show L e ++ str " | got: " ++ show L g ++ str ")"
    else if truth L d then show L m ++ str " " ++ show L d else show L m).
Proof.
  intros E. unfold text. rewrite E. cbn [getattr].
  change (str_eqb (str "_expected") (str "_message")) with false. change (str_eqb (str "_expected") (str "_detail")) with false.
  change (str_eqb (str "_expected") (str "_expected")) with true. change (str_eqb (str "_got") (str "_message")) with false.
  change (str_eqb (str "_got") (str "_detail")) with false. change (str_eqb (str "_got") (str "_expected")) with false.
  change (str_eqb (str "_got") (str "_got")) with true. change (str_eqb (str "_detail") (str "_message")) with false.
  change (str_eqb (str "_detail") (str "_detail")) with true. change (str_eqb (str "_message") (str "_message")) with true.
  cbv match. cbn [bind]. destruct (truth L e && truth L g && truth L d); [reflexivity|].
  destruct (truth L e && truth L g && negb (truth L d)); [reflexivity|]. destruct (truth L d); reflexivity.
Qed.
Lemma set_four (m d e g m' d' e' g' : value) :
  fold_left (fun o n => setattr (fst n) (snd n) o) [(str "_message", m'); (str "_detail", d'); (str "_expected", e'); (str "_got", g')]
    [(str "_message", m); (str "_detail", d); (str "_expected", e); (str "_got", g)] =
  [(str "_message", m'); (str "_detail", d'); (str "_expected", e'); (str "_got", g')].
Proof. reflexivity. Qed.
Lemma binds_positional pos kw pos' : binds pos kw = true -> pos <> [] -> List.length pos' = List.length pos -> binds pos' [] = true.
Proof.
  unfold binds. intros B N E. apply andb_prop in B. destruct B as [B _]. apply andb_prop in B. destruct B as [B _].
  rewrite E, B. cbn [forallb andb]. destruct pos' as [|v r]; [destruct pos; [contradiction|discriminate]|reflexivity].
Qed.

Lemma getattr_in n v : forall kw : list (pystr * value), getattr n kw = Some v -> In (n, v) kw.
Proof.
  induction kw as [|[k u] r IH]; [discriminate|]. cbn [getattr]. destruct (str_eqb n k) eqn:Q; [|intros; right; auto].
  apply str_eqb_spec in Q. intros [= ->]. left. congruence.
Qed.
Lemma argument_from pos kw i v : argument pos kw i = Some v -> In v pos \/ exists n, nth_error parameters i = Some n /\ In (n, v) kw.
Proof.
  unfold argument. destruct (nth_error pos i) eqn:E; [intros [= ->]; left; eapply nth_error_In; exact E|].
  destruct (nth_error parameters i) as [n|]; [|discriminate]. intros H. right. exists n. split; [reflexivity|]. apply getattr_in, H.
Qed.

(** A made exception holds values that travel, and at least its message in [args]. *)
Definition good (L : python) (x : object) : Prop :=
  x_args x <> [] /\ Forall (travels L) (x_args x) /\ (List.length (x_args x) <= 4)%nat /\
  exists m d e g, x_dict x = [(str "_message", m); (str "_detail", d); (str "_expected", e); (str "_got", g)] /\
    travels L m /\ travels L d /\ travels L e /\ travels L g.
Definition portable (L : python) (pos : list value) (kw : list (pystr * value)) : Prop :=
  Forall (travels L) pos /\ (forall v, In (str "detail", v) kw -> travels L v) /\
  (forall v, In (str "expected", v) kw -> (exists l, v = VList l) \/ travels L v).
Lemma make_good L c pos kw x cause : laws L -> make L c pos kw = Ok x -> pos <> [] -> portable L pos kw -> good L (raised_from cause x).
Proof.
  intros HL HM HN (HP & HD & HE). destruct (make_shape _ _ _ _ _ HM) as (EC & EA & _ & EB & ED). unfold good. cbn [raised_from x_args x_dict]. rewrite EA.
  assert (B4 : (List.length pos <= 4)%nat).
  { unfold binds in EB. apply andb_prop in EB. destruct EB as [EB _]. apply andb_prop in EB. destruct EB as [EB _]. apply Nat.leb_le in EB. exact EB. }
  assert (HI : forall v, In v pos -> travels L v) by (apply Forall_forall, HP).
  split; [exact HN|]. split; [exact HP|]. split; [exact B4|]. do 4 eexists. split; [exact ED|]. split; [|split; [|split]].
  - destruct (argument pos kw 0) as [v|] eqn:E; [|apply travels_none, HL]. destruct pos as [|u r]; [contradiction|]. cbn in E. injection E as <-. apply HI. left. reflexivity.
  - destruct (argument pos kw 1) as [v|] eqn:E; [|apply travels_none, HL]. destruct (argument_from _ _ _ _ E) as [I|(n & [= <-] & I)]; [apply HI, I|apply HD, I].
  - destruct (argument pos kw 2) as [v|] eqn:E; [|apply travels_none, HL]. cbn [or_none].
    destruct v as [|s|l|n]; [apply travels_none, HL|apply travels_text, HL|apply expectations_travels, HL|].
    destruct (argument_from _ _ _ _ E) as [I|(k & [= <-] & I)]; [apply HI, I|]. destruct (HE _ I) as [[l Q]|T]; [discriminate|exact T].
  - apply travels_text, HL.
Qed.
Lemma cross_good L x : laws L -> good L x -> exists y, cross L x = Ok y /\ good L y /\ looks_like L y x /\ x_cause y = None.
Proof.
  intros HL (HN & HA & H4 & m & d & e & g & ED & Tm & Td & Te & Tg).
  destruct (carry_all_travels _ _ HA) as (a & Ea & Fa & Na & Qa).
  destruct (travels_step _ _ Tm) as (m' & Em & Tm' & Sm & _ & Bm). destruct (travels_step _ _ Td) as (d' & E_d & Td' & Sd & _ & Bd).
  destruct (travels_step _ _ Te) as (e' & Ee & Te' & Se & _ & Be). destruct (travels_step _ _ Tg) as (g' & Eg & Tg' & Sg & _ & Bg).
  unfold cross, dumps. rewrite Ea, ED. cbn [carry_dict]. rewrite Em, E_d, Ee, Eg. unfold loads.
  assert (B : binds a [] = true).
  { unfold binds. rewrite Na. replace (Nat.leb _ _) with true by (symmetry; apply Nat.leb_le; exact H4). cbn [forallb andb].
    destruct a as [|v r]; [destruct (x_args x); [contradiction|discriminate]|reflexivity]. }
  unfold make. rewrite B. cbn [bind x_class x_args x_dict x_cause]. rewrite set_four. eexists. split; [reflexivity|].
  split; [|split; [|reflexivity]].
  - unfold good. cbn [x_args x_dict]. split; [destruct a; [destruct (x_args x); [contradiction|discriminate]|discriminate]|]. split; [exact Fa|]. split; [lia|].
    exists m', d', e', g'. auto 6.
  - split; [reflexivity|]. split.
    + erewrite (text_shape L x); [|exact ED]. erewrite text_shape; [|reflexivity]. rewrite Sm, Sd, Se, Sg, Bd, Be, Bg. reflexivity.
    + unfold representation. cbn [x_class x_args]. rewrite Qa. reflexivity.
Qed.
Lemma looks_like_trans L x y z : looks_like L x y -> looks_like L y z -> looks_like L x z.
Proof. intros (A & B & C) (A' & B' & C'). unfold looks_like. rewrite A, B, C. auto. Qed.

(** ** C98 *)
(** Whatever it is made and raised with, an exception whose message is given by
    position arrives looking like the original, through any number of crossings,
    without the exception it was raised from. [got] may be anything. *)
Theorem C98_arrives : forall L c positional keywords cause x n, laws L -> make L c positional keywords = Ok x ->
  positional <> [] -> portable L positional keywords ->
  exists y, crossed L n (raised_from cause x) = Ok y /\ looks_like L y x /\ ((0 < n)%nat -> x_cause y = None).
Proof.
  intros L c pos kw cause x n HL HM HN HP. pose proof (make_good _ _ _ _ _ cause HL HM HN HP) as G.
  assert (S : looks_like L (raised_from cause x) x) by (split; [reflexivity|split; reflexivity]).
  revert G S. generalize (raised_from cause x) as z. induction n as [|n IH]; intros z G S; cbn [crossed].
  - exists z. split; [reflexivity|]. split; [exact S|lia].
  - destruct (cross_good _ _ HL G) as (y & E & G' & S' & C). rewrite E. cbn [bind].
    destruct (IH y G' (looks_like_trans _ _ _ _ S' S)) as (w & E' & S'' & C'). exists w. split; [exact E'|]. split; [exact S''|].
    intros _. destruct n as [|n]; [cbn in E'; injection E' as <-; exact C|apply C'; lia].
Qed.
(** All raise statements of the library are of this form: a message text by
    position, the rest by keyword or not at all. The text is the one of
    Exceptions.v (C44), and repr and args hold the message only. *)
Theorem C98_raised : forall L c message detail expected got cause, laws L ->
  (forall v, expected = Some v -> (exists l, v = VList l) \/ travels L v) ->
  exists x, make L c [VText message] (keywords (as_detail detail) expected got) = Ok x /\
    text L x = Ok (error_str (error_init message detail (as_expected L expected) (as_got L got))) /\
    representation L x = class_name c ++ str "(" ++ quoted L (VText message) ++ str ")" /\
    forall n, exists y, crossed L n (raised_from cause x) = Ok y /\ x_class y = c /\ text L y = text L x /\ representation L y = representation L x.
Proof.
  intros L c m d e g cause HL HE.
  assert (B : binds [VText m] (keywords (as_detail d) e g) = true) by (destruct d, e, g; reflexivity).
  destruct (make L c [VText m] (keywords (as_detail d) e g)) as [x|] eqn:HM; [|unfold make in HM; rewrite B in HM; discriminate].
  exists x. split; [reflexivity|]. destruct (make_shape _ _ _ _ _ HM) as (EC & EA & _ & _ & ED). split; [|split].
  - rewrite (text_shape _ _ _ _ _ _ ED). clear HM ED.
    assert (A1 : or_none (argument [VText m] (keywords (as_detail d) e g) 1) = or_none (as_detail d)) by (destruct d, e, g; reflexivity).
    assert (A2 : or_none (argument [VText m] (keywords (as_detail d) e g) 2) = or_none e) by (destruct d, e, g; reflexivity).
    assert (A3 : or_none (argument [VText m] (keywords (as_detail d) e g) 3) = or_none g) by (destruct d, e, g; reflexivity).
    rewrite A1, A2, A3. clear A1 A2 A3. change (or_none (argument [VText m] _ 0)) with (VText m). fold (as_got L g).
    destruct HL as [(SN & TN & CN) HT]. destruct (HT m) as (-> & _ & _).
    set (G := str "'" ++ as_got L g ++ str "'"). destruct (HT G) as (-> & -> & _). change (match G with [] => false | _ => true end) with true. rewrite !andb_true_r.
    unfold error_str, error_init. cbn [e_message e_detail e_expected e_got]. fold (quote (as_got L g)) in G. fold G.
    change (match quote (as_got L g) with [] => false | _ => true end) with true. rewrite !andb_true_r.
    assert (D : truth L (or_none (as_detail d)) = text_truthy d /\ show L (or_none (as_detail d)) = match d with Some t => t | None => str "None" end).
    { destruct d as [t|]; cbn [as_detail or_none text_truthy]; [destruct (HT t) as (-> & -> & _)|auto]; destruct t; auto. }
    destruct D as [-> ->].
    assert (X : let w := match or_none e with VList l => expectations L VNone l | v => v end in
      match e_expected (error_init m d (as_expected L e) (as_got L g)) with Some (r, t) => truth L w = t /\ show L w = r | None => truth L w = false end).
    { cbv zeta. unfold error_init. cbn [e_expected]. destruct e as [[|t|l|k]|]; cbn [or_none as_expected]; auto.
      destruct l as [|v l]; cbn [expectations List.map fold_left]; [exact TN|]. cbn [expected_step]. unfold quote.
      destruct (expectations_fold L (Build_laws L (conj SN (conj TN CN)) HT) l (str "'" ++ show L v ++ str "'")) as (t & -> & E2 & N); [discriminate|].
      replace (fold_left _ _ _) with (Some t) by (symmetry; exact E2). destruct (HT t) as (-> & -> & _). auto. }
    cbv zeta in X. unfold error_init in X. cbn [e_expected] in X. set (E := match as_expected L e with ExpNone => None | ExpList items => _ | ExpOther r t => _ end) in *.
    destruct E as [[r t]|]; [destruct X as [-> ->]|rewrite X]; destruct (text_truthy d) eqn:TD; rewrite ?andb_true_r, ?andb_false_r; cbn [andb negb]; destruct d as [u|]; try destruct t; try discriminate; try reflexivity.
  - unfold representation. rewrite EC, EA. reflexivity.
  - intros n. destruct (C98_arrives L c [VText m] (keywords (as_detail d) e g) cause x n HL HM) as (y & E & (S1 & S2 & S3) & _); [discriminate| |].
    + split; [constructor; [apply travels_text, HL|constructor]|]. split.
      * intros v I. assert (Q : as_detail d = Some v).
        { unfold keywords in I. apply in_app_or in I. destruct I as [I|I]; [destruct d; cbn in I; [destruct I as [[= <-]|[]]; reflexivity|destruct I]|].
          exfalso. apply in_app_or in I. destruct I as [I|I]; [destruct e|destruct g]; cbn in I; (destruct I as [I|[]] || destruct I); discriminate I. }
        destruct d as [t|]; [injection Q as <-; apply travels_text, HL|discriminate].
      * intros v I. apply HE. unfold keywords in I. apply in_app_or in I. destruct I as [I|I]; [exfalso; destruct d; cbn in I; (destruct I as [I|[]] || destruct I); discriminate I|].
        apply in_app_or in I. destruct I as [I|I]; [destruct e; cbn in I; [destruct I as [[= <-]|[]]; reflexivity|destruct I]|].
        exfalso. destruct g; cbn in I; (destruct I as [I|[]] || destruct I); discriminate I.
    + exists y. rewrite <- EC. auto.
Qed.
(** That the message is given by position matters: with message=..., which the
    library never writes, the exception cannot be put together again. *)
Theorem C98_by_keyword : forall L c keywords cause x, make L c [] keywords = Ok x ->
  cross L (raised_from cause x) = Raise (Builtin TypeError).
Proof.
  intros L c kw cause x HM. destruct (make_shape _ _ _ _ _ HM) as (_ & EA & _). unfold cross, dumps. cbn [raised_from x_args x_dict x_class].
  rewrite EA. cbn [carry_all]. destruct (carry_dict L (x_dict x)); reflexivity.
Qed.

(** ** The theorems are not about nothing *)
(** An interpreter in which texts, lists of texts and the objects below 1000
    (numbers) can be pickled, other objects not *)
Fixpoint shown (v : value) : pystr :=
  match v with
  | VNone => str "None" | VText s => s | VObject n => dec (Z.of_nat n)
  | VList l => str "[" ++ List.concat (List.map (fun x => shown x ++ str ", ") l) ++ str "]"
  end.
Definition cpython : python :=
  {| show := shown;
     quoted := fun v => match v with VText s => str "'" ++ s ++ str "'" | v => shown v end;
     truth := fun v => match v with VNone => false | VText [] => false | VList [] => false | VObject 0 => false | _ => true end;
     carry := fun v => match v with VObject n => if Nat.leb 1000 n then None else Some v | v => Some v end |}.
Lemma cpython_laws : laws cpython.
Proof. split; [repeat split|]. intros s. destruct s; repeat split. Qed.
(** raise WIFError("Wrong WIF type", expected=WIF_TYPES, got=<an object that cannot be pickled>), wif.py:120 *)
Example C98_shown :
  exists x y, make cpython CWIFError [VText (str "Wrong WIF type")] (keywords None (Some (VList [VText (str "wif"); VText (str "wif-compressed")])) (Some (VObject 1007))) = Ok x /\
    crossed cpython 2 (raised_from (Some (Builtin ValueError)) x) = Ok y /\
    text cpython y = Ok (str "Wrong WIF type, (expected: 'wif', 'wif-compressed' | got: '1007')") /\
    representation cpython y = str "WIFError('Wrong WIF type')".
Proof. eexists. eexists. split; [reflexivity|]. split; [reflexivity|]. split; [|reflexivity]. vm_compute. reflexivity. Qed.
Example C98_arrives_case : portable cpython [VText (str "Invalid lot"); VNone; VObject 5] [(str "got", VObject 1007)] /\
  exists x, make cpython CError [VText (str "Invalid lot"); VNone; VObject 5] [(str "got", VObject 1007)] = Ok x.
Proof.
  split; [|eexists; reflexivity]. split; [|split].
  - constructor; [apply travels_text, cpython_laws|]. constructor; [apply travels_none, cpython_laws|]. constructor; [|constructor].
    exists (fun v => v = VObject 5). split; [reflexivity|]. intros u ->. exists (VObject 5). repeat split.
  - intros v [E|[]]. discriminate E.
  - intros v [E|[]]. discriminate E.
Qed.
Example C98_by_keyword_case : exists x, make cpython CError [] [(str "message", VText (str "Invalid lot"))] = Ok x /\ text cpython x = Ok (str "Invalid lot").
Proof. eexists. split; reflexivity. Qed.
