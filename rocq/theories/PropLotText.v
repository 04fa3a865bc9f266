(** * C69: lot and sequence numbers given as text *)
From Coq Require Import Lia ZifyBool ZifyNat ZifyN.
From Verif Require Import Exceptions ErrorFacts Py Prims Const Spec PyFacts Utils UtilsFacts Base58 Base58Facts Crypto
  Curve SpecCurve CurveFacts Secp256k1 SecpFacts Cryptocurrencies Wif Bip38 SpecBip38 SpecRecords SpecSession
  CodecFacts CodecFacts2 Bip38Facts Bip38Facts2 Sessions RecordFacts Toy PropEncrypt PropIntermediate PropCreate PropEC LotText.

(** ** Specification: decimal texts *)
(** Digits, with at most one underscore between two of them. *)
Inductive digits_text : pystr -> list Z -> Prop :=
  | d_last : forall d, 0 <= d <= 9 -> digits_text [(48 + Z.to_N d)%N] [d]
  | d_next : forall d s l, 0 <= d <= 9 -> digits_text s l -> digits_text ((48 + Z.to_N d)%N :: s) (d :: l)
  | d_underscore : forall d s l, 0 <= d <= 9 -> digits_text s l -> digits_text ((48 + Z.to_N d)%N :: 95%N :: s) (d :: l).
(** The number with these digits, the most significant one first. *)
Definition decimal_value (l : list Z) : Z := fold_left (fun v d => 10 * v + d) l 0.
Definition white (c : N) : Prop := In c [9; 10; 11; 12; 13; 32]%N.
(** An ASCII text for the integer [z]: "369861", " +0007 ", "-4_095", ... *)
Definition decimal_text (s : pystr) (z : Z) : Prop :=
  exists before sign number after l, s = (before ++ sign ++ number ++ after)%list /\
    Forall white before /\ Forall white after /\ digits_text number l /\
    (sign = [] /\ z = decimal_value l \/ sign = str "+" /\ z = decimal_value l \/ sign = str "-" /\ z = - decimal_value l).
Definition ascii (s : pystr) : Prop := Forall (fun c => (c < 128)%N) s.

(** ** int(text) *)
Lemma white_space c : is_space c = true <-> white c.
Proof.
  unfold is_space, white. cbn [In]. split; intros H; [|lia].
  assert (c = 9 \/ c = 10 \/ c = 11 \/ c = 12 \/ c = 13 \/ c = 32)%N as [->|[->|[->|[->|[->| ->]]]]] by lia; auto 8.
Qed.
Lemma skip_split s : exists sp, s = (sp ++ skip_space s)%list /\ Forall white sp /\ match skip_space s with [] => True | c :: _ => is_space c = false end.
Proof.
  induction s as [|c s (sp & E & F & H)]; [exists []; repeat split; constructor|]. cbn [skip_space]. destruct (is_space c) eqn:S.
  - exists (c :: sp). split; [cbn [app]; f_equal; exact E|]. split; [constructor; [apply white_space, S|exact F]|exact H].
  - exists []. split; [reflexivity|]. split; [constructor|exact S].
Qed.
Lemma skip_app sp s : Forall white sp -> skip_space (sp ++ s) = skip_space s.
Proof. induction 1 as [|c sp H _ IH]; [reflexivity|]. cbn [app skip_space]. apply white_space in H. rewrite H. exact IH. Qed.
Lemma skip_all sp : Forall white sp -> skip_space sp = [].
Proof. intros H. rewrite <- (app_nil_r sp). rewrite skip_app by exact H. reflexivity. Qed.

Lemma digit_char d : 0 <= d <= 9 -> ((48 <=? 48 + Z.to_N d) && (48 + Z.to_N d <=? 57))%N = true /\ Z.of_N (48 + Z.to_N d - 48) = d.
Proof. lia. Qed.
Definition ends (s : pystr) : Prop := match s with [] => True | c :: _ => ~ (48 <= c <= 57)%N /\ c <> 95%N end.
Lemma digits_complete : forall s l, digits_text s l -> forall v b r, ends r ->
  int_digits (s ++ r) v b = Some (fold_left (fun v d => 10 * v + d) l v, r).
Proof.
  assert (R : forall r v, ends r -> int_digits r v true = Some (v, r)).
  { intros [|c r] v E; [reflexivity|]. destruct E as [E1 E2]. cbn [int_digits].
    destruct ((48 <=? c) && (c <=? 57))%N eqn:D; [lia|]. destruct (N.eqb_spec c 95); [contradiction|]. reflexivity. }
  induction 1 as [d Hd|d s l Hd H IH|d s l Hd H IH]; intros v b r E; cbn [app int_digits fold_left]; destruct (digit_char d Hd) as [-> ->].
  - rewrite R by exact E. do 2 f_equal. lia.
  - rewrite IH by exact E. do 3 f_equal. lia.
  - cbn [N.leb N.compare Pos.compare Pos.compare_cont andb N.eqb Pos.eqb]. rewrite IH by exact E. do 3 f_equal. lia.
Qed.
Lemma digits_sound : forall s v b v' r, int_digits s v b = Some (v', r) ->
  (b = true /\ v' = v /\ r = s /\ ends s) \/
  (exists t l, s = (t ++ r)%list /\ (digits_text t l \/ b = true /\ exists t', t = 95%N :: t' /\ digits_text t' l) /\
     v' = fold_left (fun v d => 10 * v + d) l v /\ ends r).
Proof.
  induction s as [|c s IH]; intros v b v' r H; cbn [int_digits] in H.
  - destruct b; [|discriminate]. injection H as <- <-. left. repeat split.
  - destruct ((48 <=? c) && (c <=? 57))%N eqn:D.
    + right. set (d := Z.of_N (c - 48)) in *. assert (Hd : 0 <= d <= 9) by lia. assert (Hc : c = (48 + Z.to_N d)%N) by lia.
      destruct (IH _ _ _ _ H) as [(_ & -> & -> & E)|(t & l & -> & T & -> & E)].
      * exists [c], [d]. split; [reflexivity|]. split; [left; rewrite Hc; apply d_last, Hd|]. split; [cbn [fold_left]; lia|exact E].
      * exists (c :: t), (d :: l). split; [reflexivity|]. split.
        -- left. rewrite Hc. destruct T as [T|(_ & t' & -> & T)]; [apply d_next|apply d_underscore]; assumption.
        -- split; [cbn [fold_left]; f_equal; lia|exact E].
    + destruct ((c =? 95)%N && b)%bool eqn:U.
      * right. assert (c = 95%N /\ b = true) as [-> ->] by (apply andb_prop in U; destruct U as [U1 U2]; split; [apply N.eqb_eq, U1|exact U2]).
        destruct (IH _ _ _ _ H) as [(X & _)|(t & l & -> & T & -> & E)]; [discriminate|]. exists (95%N :: t), l.
        split; [reflexivity|]. split; [|split; [reflexivity|exact E]]. right. split; [reflexivity|]. exists t. split; [reflexivity|].
        destruct T as [T|(X & _)]; [exact T|discriminate].
      * destruct b; [|discriminate]. injection H as <- <-. left. repeat split; [lia|].
        destruct (N.eqb_spec c 95); [discriminate U|assumption].
Qed.
Lemma digits_head s l : digits_text s l -> exists c r, s = c :: r /\ (48 <= c <= 57)%N.
Proof. intros H. inversion H; subst; do 2 eexists; (split; [reflexivity|lia]). Qed.
Lemma ascii_forallb s : ascii s <-> forallb (fun c => (c <? 128)%N) s = true.
Proof. unfold ascii. rewrite forallb_forall, Forall_forall. split; intros H c I; specialize (H c I); lia. Qed.
Lemma decimal_ascii s z : decimal_text s z -> ascii s.
Proof.
  intros (sp & sg & nu & sp' & l & -> & F1 & F2 & D & S). unfold ascii.
  assert (W : forall x, Forall white x -> Forall (fun c => (c < 128)%N) x).
  { intros x. apply Forall_impl. intros c. unfold white. cbn [In]. lia. }
  rewrite !Forall_app. repeat split.
  - apply W, F1.
  - destruct S as [[-> _]|[[-> _]|[-> _]]]; repeat constructor.
  - clear -D. induction D; repeat constructor; trivial; lia.
  - apply W, F2.
Qed.

(** int() of an ASCII text returns exactly the integer it writes, and raises
    ValueError on all others. *)
Lemma int_of_str_complete f s z : decimal_text s z -> int_of_str f s = Some z.
Proof.
  intros H. pose proof (proj1 (ascii_forallb s) (decimal_ascii s z H)) as A. destruct H as (sp & sg & nu & sp' & l & E & F1 & F2 & D & S).
  unfold int_of_str. rewrite A. clear A. subst s. rewrite skip_app by exact F1. cbv zeta.
  assert (En : ends sp').
  { destruct F2 as [|c x W]; [exact I|]. unfold white in W. cbn [In] in W. cbn. lia. }
  destruct (digits_head _ _ D) as (c & r & Ec & Rc).
  assert (G : int_digits (nu ++ sp') 0 false = Some (decimal_value l, sp')) by (apply digits_complete; assumption).
  destruct S as [[-> ->]|[[-> ->]|[-> ->]]].
  - cbn [app]. rewrite Ec in *. cbn [app skip_space]. destruct (is_space c) eqn:X; [apply white_space in X; unfold white in X; cbn [In] in X; lia|].
    destruct (N.eqb_spec c 43); [lia|]. destruct (N.eqb_spec c 45); [lia|]. cbn [app] in G. rewrite G, skip_all by exact F2; f_equal; lia.
  - change (str "+") with [43%N]. cbn [app skip_space]. change (is_space 43) with false. cbv iota. change (43 =? 43)%N with true. cbv iota.
    rewrite G, skip_all by exact F2; f_equal; lia.
  - change (str "-") with [45%N]. cbn [app skip_space]. change (is_space 45) with false. cbv iota. change (45 =? 43)%N with false. change (45 =? 45)%N with true. cbv iota.
    rewrite G, skip_all by exact F2; f_equal; lia.
Qed.
Lemma int_of_str_sound f s z : ascii s -> int_of_str f s = Some z -> decimal_text s z.
Proof.
  intros A H. apply ascii_forallb in A. unfold int_of_str in H. rewrite A in H. destruct (skip_split s) as (sp & E & F & _).
  cbv zeta in H. set (u := skip_space s) in *. clearbody u.
  assert (G : forall w sign, match int_digits w 0 false with Some (v, r) => match skip_space r with [] => Some (sign * v) | _ => None end | None => None end = Some z ->
     exists nu sp' l, w = (nu ++ sp')%list /\ digits_text nu l /\ Forall white sp' /\ z = sign * decimal_value l).
  { intros w sign X. destruct (int_digits w 0 false) as [[v r]|] eqn:I; [|discriminate]. destruct (skip_split r) as (sp' & Er & Fr & _).
    destruct (skip_space r); [|discriminate]. injection X as <-. rewrite app_nil_r in Er. subst sp'.
    destruct (digits_sound _ _ _ _ _ I) as [(Y & _)|(t & l & -> & T & -> & _)]; [discriminate|].
    destruct T as [T|(Y & _)]; [|discriminate]. exists t, r, l. auto. }
  rewrite E. destruct u as [|c r].
  - destruct (G [] 1 H) as (nu & sp' & l & X & D & _). destruct (digits_head _ _ D) as (c & r & -> & _). discriminate.
  - destruct (N.eqb_spec c 43) as [->|N1]; [|destruct (N.eqb_spec c 45) as [->|N2]].
    + destruct (G _ _ H) as (nu & sp' & l & -> & D & W & ->). exists sp, (str "+"), nu, sp', l. repeat split; trivial. right. left. split; [reflexivity|lia].
    + destruct (G _ _ H) as (nu & sp' & l & -> & D & W & ->). exists sp, (str "-"), nu, sp', l. repeat split; trivial. right. right. split; [reflexivity|lia].
    + destruct (G _ _ H) as (nu & sp' & l & X & D & W & ->). exists sp, [], nu, sp', l. rewrite X. repeat split; trivial. left. split; [reflexivity|lia].
Qed.

(** ** Specification: what an argument says *)
(** [a] gives the number [z]: as a non-zero integer, or as text. *)
Definition gives (a : numarg) (z : Z) : Prop :=
  a = NInt z /\ z <> 0 \/ exists s, a = NText s /\ decimal_text s z.
(** An ASCII text that is not empty and writes no integer. *)
Definition not_a_number (a : numarg) : Prop := exists s, a = NText s /\ s <> [] /\ ascii s /\ forall z, ~ decimal_text s z.
Definition as_number (o : option Z) : numarg := match o with Some z => NInt z | None => NNone end.

Lemma gives_facts f a z : gives a z -> truthy_num a = true /\ num_none a = false /\ int_of f a = Ok z.
Proof.
  intros [[-> N]|(s & -> & D)].
  - cbn. destruct (Z.eqb_spec z 0); [contradiction|]. repeat split.
  - assert (X : s <> []). { intros ->. destruct D as (sp & sg & nu & sp' & l & E & _ & _ & D & _). destruct (digits_head _ _ D) as (c & r & -> & _). destruct sp, sg; discriminate. }
    cbn [truthy_num num_none int_of]. rewrite (int_of_str_complete f s z D). destruct s; [congruence|]. repeat split.
Qed.
Lemma not_number_facts f a : not_a_number a -> truthy_num a = true /\ num_none a = false /\ int_of f a = Raise (Builtin ValueError).
Proof.
  intros (s & -> & N & A & D). cbn [truthy_num num_none int_of]. destruct (int_of_str f s) as [z|] eqn:E; [destruct (D z (int_of_str_sound f s z A E))|].
  destruct s; [congruence|]. repeat split.
Qed.
Lemma both_reached P f random arg salt pw lot sequence : entropy_arg random arg = Ok salt ->
  List.length salt = 4%nat \/ List.length salt = 8%nat ->
  truthy_num lot = true -> num_none lot = false -> truthy_num sequence = true -> num_none sequence = false ->
  intermediate_code_any P f random pw lot sequence arg =
  let* l := int_of f lot in
  let* q := int_of f sequence in
  if negb ((100000 <=? l) && (l <=? 999999))
  then Raise (lib_error CError (str "Invalid lot") None (ExpOther (str "100000 <= lot <= 999999") true) (dec l))
  else if negb ((0 <=? q) && (q <=? 4095))
  then Raise (lib_error CError (str "Invalid sequence") None (ExpOther (str "0 <= sequence <= 4095") true) (dec q))
  else intermediate_result P true pw (upto 4 salt ++ z2be 4 (l * 4096 + q)).
Proof.
  intros A Hn T1 N1 T2 N2. unfold intermediate_code_any. fold (entropy_arg random arg). rewrite A. cbn [bind].
  replace (Nat.eqb (List.length salt) 4 || Nat.eqb (List.length salt) 8) with true by (destruct Hn as [-> | ->]; reflexivity).
  rewrite T1, N1, T2, N2. cbn [negb orb andb]. rewrite andb_false_r. cbv beta iota.
  destruct (int_of f lot) as [l|e]; [|reflexivity]. cbn [bind]. destruct (int_of f sequence) as [q|e]; [|reflexivity]. cbn [bind].
  destruct (negb ((100000 <=? l) && (l <=? 999999))) eqn:E1; [reflexivity|].
  destruct (negb ((0 <=? q) && (q <=? 4095))) eqn:E2; [reflexivity|].
  unfold intermediate_result. rewrite scrypt_str_eq. destruct (utf8_encode _) as [pwb|e]; [|reflexivity]. cbn [bind].
  rewrite lot_seq_bytes by lia. cbn [bind]. rewrite double_sha256_eq. cbn [bind].
  change (integer_to_bytes MAGIC_LOT_AND_SEQUENCE) with (Ok (magic_bytes true) : res bytes). cbn [bind].
  set (ent := upto 4 salt ++ z2be 4 (l * 4096 + q)). cbv zeta.
  replace (sha256d P (h_scrypt P pwb (upto 4 salt) 16384 8 8 32 ++ ent)) with (pass_factor P true pwb ent).
  - apply intermediate_tail.
  - unfold pass_factor. cbv zeta beta iota. unfold ent at 1. rewrite upto_app; [reflexivity|apply upto_length; destruct Hn; lia].
Qed.

(** ** C69 *)
(** With integers and None it is the function of the other theorems. *)
Theorem C69_numbers : forall P rewritten random pw lot sequence arg,
  intermediate_code_any P rewritten random pw (as_number lot) (as_number sequence) arg = intermediate_code P random pw lot sequence arg.
Proof.
  intros P f random pw lot sequence arg. unfold intermediate_code_any, intermediate_code.
  assert (T : forall o, truthy_num (as_number o) = truthy_int o) by (intros [z|]; reflexivity).
  assert (N : forall o, num_none (as_number o) = is_none o) by (intros [z|]; reflexivity).
  assert (D : forall o, num_text (as_number o) = opt_dec o) by (intros [z|]; reflexivity).
  rewrite !T, !N, !D. destruct (if truthy arg then get_bytes arg true else Ok random) as [salt|e]; [|reflexivity]. cbn [bind].
  destruct (negb _); [reflexivity|]. destruct (Nat.eqb _ 4 && _); [reflexivity|]. destruct (_ || _); [reflexivity|].
  destruct lot as [l|], sequence as [q|]; cbn [truthy_int andb as_number int_of bind]; try (rewrite andb_false_r); try reflexivity.
Qed.
(** Numbers given as text make the code with these numbers, 0 included. *)
Theorem C69_lot_code : forall P rewritten random arg salt pw lot sequence l q s, prims_ok P ->
  argument_bytes random arg salt -> List.length salt = 4%nat \/ List.length salt = 8%nat ->
  gives lot l -> gives sequence q -> 100000 <= l <= 999999 -> 0 <= q <= 4095 ->
  (intermediate_code_any P rewritten random pw lot sequence arg = Ok s <->
   exists ent, lot_entropy (slice 0 4 salt) l q ent /\ passphrase_code P true ent pw s).
Proof.
  intros P f random arg salt pw lot sequence l q s HP A L G1 G2 H1 H2. apply argument_entropy in A.
  destruct (gives_facts f _ _ G1) as (T1 & N1 & I1). destruct (gives_facts f _ _ G2) as (T2 & N2 & I2).
  rewrite (both_reached P f _ _ _ pw _ _ A L T1 N1 T2 N2), I1, I2. cbn [bind].
  destruct (negb ((100000 <=? l) && (l <=? 999999))) eqn:E1; [lia|]. destruct (negb ((0 <=? q) && (q <=? 4095))) eqn:E2; [lia|].
  rewrite <- (passphrase_code_iff P true _ pw s HP). change (slice 0 4 salt) with (upto 4 salt). split.
  - intros H. eexists. split; [|exact H]. apply lot_entropy_iff; [cbn; lia|reflexivity].
  - intros (ent & E & H). apply lot_entropy_iff in E; [|cbn; lia]. rewrite <- E. exact H.
Qed.
Theorem C69_lot_outcome : forall P rewritten random arg salt pw pwb lot sequence l q ent, prims_ok P ->
  argument_bytes random arg salt -> List.length salt = 4%nat \/ List.length salt = 8%nat ->
  gives lot l -> gives sequence q -> 100000 <= l <= 999999 -> 0 <= q <= 4095 -> lot_entropy (slice 0 4 salt) l q ent ->
  passphrase_bytes P pw pwb ->
  ((exists e, scalar (owner_factor P true pwb ent) e) /\ exists s, intermediate_code_any P rewritten random pw lot sequence arg = Ok s) \/
  ((forall e, ~ scalar (owner_factor P true pwb ent) e) /\
   intermediate_code_any P rewritten random pw lot sequence arg = Raise (Lib CSecp256k1Error "Invalid private key bytes")).
Proof.
  intros P f random arg salt pw pwb lot sequence l q ent HP A L G1 G2 H1 H2 LE B. apply argument_entropy in A. apply lot_entropy_iff in LE; [|cbn; lia].
  destruct (gives_facts f _ _ G1) as (T1 & N1 & I1). destruct (gives_facts f _ _ G2) as (T2 & N2 & I2).
  rewrite (both_reached P f _ _ _ pw _ _ A L T1 N1 T2 N2), I1, I2. cbn [bind].
  destruct (negb ((100000 <=? l) && (l <=? 999999))) eqn:E1; [lia|]. destruct (negb ((0 <=? q) && (q <=? 4095))) eqn:E2; [lia|].
  change (upto 4 salt) with (slice 0 4 salt). rewrite <- LE. rewrite owner_factor_eq.
  unfold passphrase_bytes in B. unfold intermediate_result. rewrite B. cbv zeta. destruct (key_okb _) eqn:K.
  - left. split; [eexists; apply key_okb_spec, K|eexists; reflexivity].
  - right. split; [|reflexivity]. intros e S. apply scalar_be2z in S. destruct S. congruence.
Qed.
(** Text and integer are interchangeable unless the number is 0. *)
Theorem C69_text_or_integer : forall P rewritten random arg pw lot sequence l q,
  gives lot l -> gives sequence q -> l <> 0 -> q <> 0 ->
  intermediate_code_any P rewritten random pw lot sequence arg = intermediate_code P random pw (Some l) (Some q) arg.
Proof.
  intros P f random arg pw lot sequence l q G1 G2 H1 H2. rewrite <- (C69_numbers P f).
  destruct (gives_facts f _ _ G1) as (T1 & N1 & I1). destruct (gives_facts f _ _ G2) as (T2 & N2 & I2).
  unfold intermediate_code_any. rewrite T1, T2, N1, N2, I1, I2. cbn [as_number truthy_num num_none int_of bind].
  destruct (Z.eqb_spec l 0); [contradiction|]. destruct (Z.eqb_spec q 0); [contradiction|]. cbn [negb andb orb].
  reflexivity.
Qed.
Lemma zero_integer P f random arg pw lot l : gives lot l -> l <> 0 ->
  intermediate_code_any P f random pw lot (NInt 0) arg = intermediate_code P random pw (Some l) (Some 0) arg.
Proof.
  intros G H. destruct (gives_facts f _ _ G) as (T1 & N1 & _). rewrite <- (C69_numbers P f). unfold intermediate_code_any. rewrite T1, N1. cbn [as_number truthy_num num_none].
  destruct (Z.eqb_spec l 0); [contradiction|]. reflexivity.
Qed.
(** Sequence number 0: as text it is kept, as an integer the lot number is dropped with
    it (C23); the two codes differ. *)
Theorem C69_zero_sequence : forall P rewritten random random' arg arg' salt salt' pw pw' lot l sequence s s', prims_ok P ->
  argument_bytes random arg salt -> List.length salt = 4%nat \/ List.length salt = 8%nat ->
  argument_bytes random' arg' salt' -> List.length salt' = 4%nat \/ List.length salt' = 8%nat ->
  gives lot l -> 100000 <= l <= 999999 -> decimal_text sequence 0 ->
  intermediate_code_any P rewritten random pw lot (NText sequence) arg = Ok s ->
  intermediate_code_any P rewritten random' pw' lot (NInt 0) arg' = Ok s' -> s <> s'.
Proof.
  intros P f random random' arg arg' salt salt' pw pw' lot l sq s s' HP A L A' L' G H1 D E E'.
  assert (G2 : gives (NText sq) 0) by (right; eauto).
  apply argument_entropy in A, A'.
  destruct (gives_facts f _ _ G) as (T1 & N1 & I1). destruct (gives_facts f _ _ G2) as (T2 & N2 & I2).
  rewrite (both_reached P f _ _ _ pw _ _ A L T1 N1 T2 N2), I1, I2 in E. cbn [bind] in E.
  destruct (negb ((100000 <=? l) && (l <=? 999999))) eqn:E1; [lia|]. change (negb ((0 <=? 0) && (0 <=? 4095))) with false in E. cbv iota in E.
  assert (F' : intermediate_result P false pw' salt' = Ok s').
  { rewrite <- E', <- (intermediate_plain_eq P random' arg' salt' pw' (Some l) (Some 0) A').
    - symmetry. apply zero_integer; [exact G|lia].
    - right. split; [exact L'|]. exists l, 0. auto. }
  clear E'. intros <-. unfold intermediate_result in E, F'.
  destruct (utf8_encode (h_nfc P pw)) as [b|]; [|discriminate]. destruct (utf8_encode (h_nfc P pw')) as [b'|]; [|discriminate].
  cbv zeta in E, F'. destruct (key_okb (pass_factor P true b _)); [|discriminate E]. destruct (key_okb (pass_factor P false b' _)); [|discriminate F'].
  apply Ok_inj in E, F'. rewrite <- F' in E. apply b58c_inj in E; [|exact HP]. discriminate (f_equal (fun x => nth 7 x x00) E).
Qed.
(** Numbers out of range, and texts that are no number, are refused. *)
Theorem C69_lot_range : forall P rewritten random arg salt pw lot sequence l q, argument_bytes random arg salt ->
  List.length salt = 4%nat \/ List.length salt = 8%nat -> gives lot l -> gives sequence q -> ~ 100000 <= l <= 999999 ->
  intermediate_code_any P rewritten random pw lot sequence arg = Raise (Lib CError (error_text "Invalid lot" (str "100000 <= lot <= 999999") (dec l))).
Proof.
  intros P f random arg salt pw lot sequence l q A L G1 G2 R. apply argument_entropy in A.
  destruct (gives_facts f _ _ G1) as (T1 & N1 & I1). destruct (gives_facts f _ _ G2) as (T2 & N2 & I2).
  rewrite (both_reached P f _ _ _ pw _ _ A L T1 N1 T2 N2), I1, I2. cbn [bind]. replace (negb _) with true by lia. rewrite lib_error_other. reflexivity.
Qed.
Theorem C69_sequence_range : forall P rewritten random arg salt pw lot sequence l q, argument_bytes random arg salt ->
  List.length salt = 4%nat \/ List.length salt = 8%nat -> gives lot l -> gives sequence q -> 100000 <= l <= 999999 -> ~ 0 <= q <= 4095 ->
  intermediate_code_any P rewritten random pw lot sequence arg = Raise (Lib CError (error_text "Invalid sequence" (str "0 <= sequence <= 4095") (dec q))).
Proof.
  intros P f random arg salt pw lot sequence l q A L G1 G2 R R'. apply argument_entropy in A.
  destruct (gives_facts f _ _ G1) as (T1 & N1 & I1). destruct (gives_facts f _ _ G2) as (T2 & N2 & I2).
  rewrite (both_reached P f _ _ _ pw _ _ A L T1 N1 T2 N2), I1, I2. cbn [bind].
  destruct (negb ((100000 <=? l) && (l <=? 999999))) eqn:E1; [lia|]. replace (negb _) with true by lia. rewrite lib_error_other. reflexivity.
Qed.
Theorem C69_not_a_number : forall P rewritten random arg salt pw lot sequence, argument_bytes random arg salt ->
  List.length salt = 4%nat \/ List.length salt = 8%nat ->
  not_a_number lot /\ ((exists q, gives sequence q) \/ not_a_number sequence) \/ (exists l, gives lot l) /\ not_a_number sequence ->
  intermediate_code_any P rewritten random pw lot sequence arg = Raise (Builtin ValueError).
Proof.
  intros P f random arg salt pw lot sequence A L H. apply argument_entropy in A.
  assert (G : forall a, (exists z, gives a z) \/ not_a_number a -> truthy_num a = true /\ num_none a = false).
  { intros a [[z Ga]|Na]; [destruct (gives_facts f _ _ Ga)|destruct (not_number_facts f _ Na)]; tauto. }
  destruct (G lot ltac:(tauto)) as [T1 N1]. destruct (G sequence ltac:(tauto)) as [T2 N2].
  rewrite (both_reached P f _ _ _ pw _ _ A L T1 N1 T2 N2). destruct H as [[H _]|[[l G1] H]].
  - destruct (not_number_facts f _ H) as (_ & _ & ->). reflexivity.
  - destruct (gives_facts f _ _ G1) as (_ & _ & ->). destruct (not_number_facts f _ H) as (_ & _ & ->). reflexivity.
Qed.
(** A number without the other one. *)
Theorem C69_one_missing : forall P rewritten random arg salt pw s, argument_bytes random arg salt ->
  List.length salt = 8%nat -> s <> [] ->
  intermediate_code_any P rewritten random pw (NText s) NNone arg =
    Raise (Lib CError (str "Both lot & sequence are required got: (lot " ++ s ++ str ") & (sequence None)")%list) /\
  intermediate_code_any P rewritten random pw NNone (NText s) arg =
    Raise (Lib CError (str "Both lot & sequence are required got: (lot None) & (sequence " ++ s ++ str ")")%list).
Proof.
  intros P f random arg salt pw s A L N. apply argument_entropy in A. unfold entropy_arg in A. unfold intermediate_code_any.
  rewrite A. cbn [bind]. rewrite L. cbn [Nat.eqb orb negb andb num_none]. destruct s as [|c s]; [congruence|]. cbn [truthy_num andb orb].
  split; unfold lib_error; rewrite error_str_text; reflexivity.
Qed.
(** The round trip of C24, with lot and sequence given in any way; sequence 0 comes back. *)
Theorem C69_roundtrip : forall P rewritten random random' self network w a c pw pwb lot sequence l q salt_arg salt ent code arg seed r k S,
  prims_ok P -> session self network w a ->
  argument_bytes random salt_arg salt -> List.length salt = 4%nat \/ List.length salt = 8%nat ->
  gives lot l -> gives sequence q -> 100000 <= l <= 999999 -> 0 <= q <= 4095 -> lot_entropy (slice 0 4 salt) l q ent ->
  intermediate_code_any P rewritten random pw lot sequence salt_arg = Ok code ->
  argument_bytes random' arg seed -> List.length seed = 24%nat ->
  create_new_encrypted_wif P random' self code (wif_name c) arg network = Ok r ->
  passphrase_bytes P pw pwb -> ec_private_key P true pwb ent seed k ->
  seed_mask P true pwb ent (address_hash P (n_address r)) S ->
  first_byte seed <> x00 -> nth 8 (seed_block_1 P S seed) x00 <> x00 -> first_byte k <> x00 ->
  exists d, decrypt P self (n_encrypted_wif r) pw network true = Ok (DDetail d) /\
    decrypt P self (n_encrypted_wif r) pw network false = Ok (DWif (d_wif d)) /\
    describes P w a c k d /\ d_address d = n_address r /\ d_lot d = Some l /\ d_sequence d = Some q.
Proof.
  intros P f random random' self network w a c pw pwb lot sequence l q salt_arg salt ent code arg seed r k S HP HS A1 Lsa G1 G2 Hl Hq LE I A Ls E B PK SM Z1 Z2 Z3.
  apply (C69_lot_code P f random salt_arg salt pw lot sequence l q code HP A1 Lsa G1 G2 Hl Hq) in I. destruct I as (ent' & LE' & T).
  apply lot_entropy_iff in LE, LE'; try (cbn; lia). subst ent'.
  assert (L4 : List.length (slice 0 4 salt) = 4%nat) by (rewrite slice_length; lia).
  assert (Le : List.length ent = 8%nat) by (rewrite LE, app_length, L4, z2be_length; reflexivity). rewrite <- LE in T.
  rewrite <- (pad_24 seed Ls) in Z2.
  destruct (C30_short_seed_roundtrip P random' self network w a true c ent pw pwb code arg seed r k S HP HS A ltac:(lia) Le B T E PK SM Z1 Z2) as [H _].
  destruct (H Z3) as (d & D1 & D2 & Dd & S1 & S2 & S3 & S4 & S5 & LR). exists d.
  split; [exact D1|]. split; [exact D2|]. split; [exact Dd|]. split; [exact S3|].
  destruct LR as (l' & q' & -> & -> & V & Hl' & Hq'). rewrite LE in V.
  replace (slice 4 8 (slice 0 4 salt ++ z2be 4 (l * 4096 + q))) with (z2be 4 (l * 4096 + q)) in V.
  2:{ unfold slice at 1. rewrite skipn_app, L4, Nat.sub_diag, skipn_all2 by lia. cbn [skipn app]. symmetry. apply firstn_all2. rewrite z2be_length. lia. }
  rewrite be_value_be2z, z2be_small_be2z in V by (cbn; lia). split; f_equal; lia.
Qed.

(** Concrete cases *)
Lemma decimal_one s l : digits_text s l -> decimal_text s (decimal_value l).
Proof. intros D. exists [], [], s, [], l. rewrite app_nil_r. repeat split; trivial. left. auto. Qed.
Example C69_texts : decimal_text (str "369861") 369861 /\ decimal_text (str "0") 0 /\ decimal_text (str " +0_7 ") 7 /\ decimal_text (str "-1") (-1) /\
  not_a_number (NText (str "12a")) /\ not_a_number (NText (str "1__2")) /\ not_a_number (NText (str " ")).
Proof.
  assert (N : forall s, s <> [] -> ascii s -> int_of_str (fun x => x) s = None -> not_a_number (NText s)).
  { intros s H A E. exists s. repeat split; trivial. intros z D. rewrite (int_of_str_complete (fun x => x) s z D) in E. discriminate. }
  assert (Y : forall s z, ascii s -> int_of_str (fun x => x) s = Some z -> decimal_text s z) by (intros s z A; apply int_of_str_sound, A).
  repeat split; try (apply Y; [apply ascii_forallb|]; vm_compute; reflexivity); (apply N; [discriminate|apply ascii_forallb; vm_compute; reflexivity|vm_compute; reflexivity]).
Qed.
Example C69_zero_example : exists s s',
  intermediate_code_any toy (fun x => x) [] (str "Satoshi") (NText (str "369861")) (NText (str "0")) (PBytes [x01; x02; x03; x04]) = Ok s /\
  intermediate_code_any toy (fun x => x) [] (str "Satoshi") (NText (str "369861")) (NInt 0) (PBytes [x01; x02; x03; x04]) = Ok s' /\ s <> s'.
Proof.
  assert (A : argument_bytes [] (PBytes [x01; x02; x03; x04]) [x01; x02; x03; x04]) by (right; left; split; [reflexivity|discriminate]).
  destruct C69_texts as (D1 & D0 & _).
  assert (G1 : gives (NText (str "369861")) 369861) by (right; eauto). assert (G0 : gives (NText (str "0")) 0) by (right; eauto).
  assert (E1 : exists s, intermediate_code_any toy (fun x => x) [] (str "Satoshi") (NText (str "369861")) (NText (str "0")) (PBytes [x01; x02; x03; x04]) = Ok s).
  { destruct (C69_lot_outcome toy (fun x => x) [] _ _ (str "Satoshi") _ _ _ 369861 0 _ toy_ok A (or_introl eq_refl) G1 G0 ltac:(lia) ltac:(lia)
      (proj2 (lot_entropy_iff _ 369861 0 _ ltac:(cbn; lia)) eq_refl) toy_pw) as [[_ H]|[H _]]; [exact H|].
    destruct (toy_factor_lot (List.map n2b (str "Satoshi")) (slice 0 4 [x01; x02; x03; x04] ++ z2be 4 (369861 * 4096 + 0))) as [e S].
    destruct (H e S). }
  destruct E1 as [s E1]. destruct C23_example as [s' E2].
  assert (E3 : intermediate_code_any toy (fun x => x) [] (str "Satoshi") (NText (str "369861")) (NInt 0) (PBytes [x01; x02; x03; x04]) = Ok s').
  { rewrite <- E2. apply zero_integer; [exact G1|discriminate]. }
  exists s, s'. split; [exact E1|]. split; [exact E3|].
  exact (C69_zero_sequence toy (fun x => x) [] [] _ _ _ _ _ _ _ _ _ s s' toy_ok A (or_introl eq_refl) A (or_introl eq_refl) G1 ltac:(lia) D0 E1 E3).
Qed.
