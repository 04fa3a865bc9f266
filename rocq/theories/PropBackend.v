(** * PropBackend: C95, the curve package and python -O. *)
From Coq Require Import Lia.
From Verif Require Import Py Prims Const Exceptions Utils Base58 Crypto Curve Secp256k1
  Cryptocurrencies P2PKHAddress Wif Bip38 Spec SpecCurve SpecBip38 Backend SpecBackend
  PyFacts UtilsFacts CurveFacts CurveFacts2 SecpFacts Bip38Facts.

Lemma bind_same {A C} (m : res A) (f g : A -> res C) : (forall x, m = Ok x -> f x = g x) -> bind m f = bind m g.
Proof. intros H. destruct m as [a|e]; [apply H; reflexivity|reflexivity]. Qed.

Section Package.
  Variable B : backend.
  Hypothesis H : keeps_to_sec1 B.

  Lemma pkg_private l : b_private B l = PrivateKey_from_bytes l.
  Proof.
    destruct (PrivateKey_from_bytes l) as [[e]|x] eqn:E.
    - apply PrivateKey_from_bytes_iff in E. apply (sec1_private B H), E.
    - rewrite (PrivateKey_from_bytes_err _ _ E). apply (sec1_private_refused B H).
      intros e S. apply (PrivateKey_from_bytes_iff l {| secexp := e |}) in S. congruence.
  Qed.
  Lemma pkg_secret l k : PrivateKey_from_bytes l = Ok k -> b_secret B k = PrivateKey_raw k.
  Proof.
    intros E. rewrite (PrivateKey_raw_id _ _ E). destruct k as [e]. apply PrivateKey_from_bytes_iff in E. apply (sec1_secret B H), E.
  Qed.
  Lemma pkg_public l k : PrivateKey_from_bytes l = Ok k -> b_public B k = PrivateKey_public_key k.
  Proof.
    intros E. apply PrivateKey_from_bytes_iff in E. destruct k as [e]. destruct E as [_ R]. cbn [secexp] in R.
    destruct (public_key_ok e R) as ([x y] & F & Q & O). rewrite F. apply (sec1_public B H); [exact R|].
    apply ec_multiple_iff; [exact G_on|]. rewrite Z2N.id by lia. exact Q.
  Qed.
  Lemma pkg_public_ok l k p : PrivateKey_from_bytes l = Ok k -> PrivateKey_public_key k = Ok p -> pk_ok p.
  Proof.
    intros E F. apply PrivateKey_from_bytes_iff in E. destruct k as [e]. destruct E as [_ R].
    destruct (public_key_ok e R) as (p' & F' & _ & O). congruence.
  Qed.
  Lemma pkg_from_bytes l : (List.length l <= 33)%nat -> b_from_bytes B l = PublicKey_from_bytes l.
  Proof.
    intros L. destruct (PublicKey_from_bytes l) as [[x y]|e] eqn:E.
    - apply PublicKey_from_bytes_iff in E. cbn [pk_x pk_y] in E. destruct E as [O [C|[C|[C|C]]]].
      + apply (sec1_from_bytes B H). split; [exact O|exact C].
      + apply uncompressed_length in C. lia.
      + apply raw_xy_length in C. lia.
      + apply hybrid_length in C. lia.
    - rewrite (PublicKey_from_bytes_err _ _ E). apply (sec1_from_bytes_refused B H); [exact L|]. intros x y [O C].
      assert (D : PublicKey_from_bytes l = Ok {| pk_x := x; pk_y := y |}) by (apply PublicKey_from_bytes_iff; split; [exact O|left; exact C]).
      congruence.
  Qed.
  Lemma every_form : reads_every_form B -> forall l, b_from_bytes B l = PublicKey_from_bytes l.
  Proof.
    intros R l. destruct (PublicKey_from_bytes l) as [[x y]|e] eqn:E.
    - apply PublicKey_from_bytes_iff in E. apply (form_read B R). exact E.
    - rewrite (PublicKey_from_bytes_err _ _ E). apply (form_refused B R). intros x y D.
      apply (PublicKey_from_bytes_iff l {| pk_x := x; pk_y := y |}) in D. congruence.
  Qed.
  Lemma pkg_from_bytes_ok l k : PublicKey_from_bytes l = Ok k -> pk_ok k.
  Proof. intros E. apply PublicKey_from_bytes_iff in E. tauto. Qed.
  Lemma pkg_point k z : pk_ok k -> 1 <= z < N_order ->
    b_from_point B (b_mul B k z) = PublicKey_from_point (Point_mul (PublicKey_point k) z).
  Proof.
    destruct k as [x y]. intros O R. unfold pk_ok, PublicKey_point in O. cbn [pk_x pk_y] in O. change N_order with G_order in R.
    assert (M : b_mul B {| pk_x := x; pk_y := y |} z = ec_mul z (Aff x y)).
    { apply (sec1_mul B H); [exact O|exact R|]. apply ec_multiple_iff; [exact O|]. rewrite Z2N.id by lia. reflexivity. }
    rewrite M. unfold Point_mul, PublicKey_point. cbn [pk_x pk_y]. pose proof (ec_mul_on z (Aff x y) O) as OM.
    destruct (ec_mul z (Aff x y)) as [|u w] eqn:E.
    - exfalso. apply ec_mul_nz in E; [|exact O|discriminate]. apply Z.divide_pos_le in E; lia.
    - rewrite (sec1_from_point B H) by exact OM. symmetry. apply PublicKey_from_point_iff. split; [reflexivity|exact OM].
  Qed.
  Lemma pkg_point_ok p k : PublicKey_from_point p = Ok k -> pk_ok k.
  Proof. intros E. apply PublicKey_from_point_iff in E. tauto. Qed.
  Lemma pkg_compressed k : pk_ok k -> b_compressed B k = raw_compressed k.
  Proof. intros O. destruct (raw_compressed_ok k O) as (l & -> & S). destruct k as [x y]. apply (sec1_to_compressed B H); assumption. Qed.
  Lemma pkg_uncompressed k : pk_ok k -> b_uncompressed B k = raw_uncompressed k.
  Proof. intros O. destruct (raw_uncompressed_ok k O) as (l & -> & S). destruct k as [x y]. apply (sec1_to_uncompressed B H); assumption. Qed.
  Lemma pkg_raw k t : pk_ok k -> PublicKey_raw_on B k t = PublicKey_raw k t.
  Proof. intros O. unfold PublicKey_raw_on, PublicKey_raw. rewrite pkg_compressed, pkg_uncompressed by exact O. reflexivity. Qed.
  Lemma pkg_p2pkh P a ap t al : (forall k, a = PKObj k -> pk_ok k) -> (forall d, a = PKData d -> reads_every_form B) ->
    P2PKH_encode_on B P a ap t al = P2PKH_encode P a ap t al.
  Proof.
    intros O R. unfold P2PKH_encode_on, P2PKH_encode. apply bind_same. intros prefix _.
    assert (E : forall k, pk_ok k ->
      (let* raw := if str_eqb (default (str "compressed") t) (str "compressed") then b_compressed B k else b_uncompressed B k in
       let* h := hash160 P (PBytes raw) in let* s := check_encode P (prefix ++ h) (default Bitcoin_ALPHABET al) in ensure_string s) =
      (let* raw := if str_eqb (default (str "compressed") t) (str "compressed") then raw_compressed k else raw_uncompressed k in
       let* h := hash160 P (PBytes raw) in let* s := check_encode P (prefix ++ h) (default Bitcoin_ALPHABET al) in ensure_string s)).
    { intros k K. rewrite pkg_compressed, pkg_uncompressed by exact K. reflexivity. }
    destruct a as [k|d]; cbn [bind].
    - apply E, O. reflexivity.
    - destruct (get_bytes d true) as [b|e]; cbn [bind]; [|reflexivity]. rewrite (every_form (R d eq_refl)).
      apply bind_same. intros k K. apply E. exact (pkg_from_bytes_ok _ _ K).
  Qed.
  Lemma pkg_address P s n k t : pk_ok k -> address_of_on B P s n k t = address_of P s n k t.
  Proof.
    intros O. unfold address_of_on, address_of. apply bind_same. intros ap _. apply pkg_p2pkh; [|discriminate]. intros k' E. injection E as <-. exact O.
  Qed.
  Lemma derived_range P pw f e q ls : derive_pass_factor P pw f e = Ok (q, ls) -> 1 <= bytes_to_integer q < N_order.
  Proof.
    unfold derive_pass_factor. destruct (if int_in _ _ then _ else _) as [salt l].
    destruct (scrypt_str _ _ _ _ _ _ _) as [a|x]; cbn [bind]; [|discriminate].
    destruct (match l with Some (_ :: _) => _ | _ => _ end) as [b|x]; cbn [bind]; [|discriminate].
    destruct ((bytes_to_integer b =? 0) || (N_order <=? bytes_to_integer b))%bool eqn:R; [discriminate|].
    intros [= <- <-]. apply Bool.orb_false_iff in R. destruct R as [R1 R2]. apply Z.eqb_neq in R1. apply Z.leb_gt in R2.
    pose proof (be2z_bound b : 0 <= bytes_to_integer b < _). lia.
  Qed.

  Ltac step :=
    match goal with
    | |- ?a = ?a => reflexivity
    | |- bind (b_private B ?l) _ = _ => rewrite (pkg_private l)
    | |- bind (b_from_bytes B ?l) _ = _ => rewrite (pkg_from_bytes l) by (rewrite from_length; lia)
    | E : PrivateKey_from_bytes _ = Ok ?k |- bind (b_public B ?k) _ = _ => rewrite (pkg_public _ _ E)
    | K : pk_ok ?k |- bind (b_compressed B ?k) _ = _ => rewrite (pkg_compressed k K)
    | K : pk_ok ?k |- bind (PublicKey_raw_on B ?k ?t) _ = _ => rewrite (pkg_raw k t K)
    | K : pk_ok ?k |- bind (address_of_on B ?P ?s ?n ?k ?t) _ = _ => rewrite (pkg_address P s n k t K)
    | |- bind (PrivateKey_public_key ?k) _ = bind _ _ =>
        apply bind_same; let p := fresh "p" in let E := fresh "E" in intros p E;
        match goal with F : PrivateKey_from_bytes _ = Ok k |- _ => pose proof (pkg_public_ok _ _ _ F E) end
    | |- bind (PublicKey_from_bytes _) _ = bind _ _ =>
        apply bind_same; let p := fresh "p" in let E := fresh "E" in intros p E; pose proof (pkg_from_bytes_ok _ _ E)
    | |- bind (PublicKey_from_point _) _ = bind _ _ =>
        apply bind_same; let p := fresh "p" in let E := fresh "E" in intros p E; pose proof (pkg_point_ok _ _ E)
    | |- bind (b_from_point B (b_mul B ?k ?z)) _ = _ => rewrite (pkg_point k z) by first [assumption|lia]
    | |- bind ?m _ = bind ?m _ => apply bind_same; let x := fresh "x" in let E := fresh "E" in intros x E
    | |- (let '(_, _) := ?x in _) = _ => destruct x
    | |- (if ?c then _ else _) = (if ?c then _ else _) => destruct c eqn:?
    end.

  Lemma pkg_intermediate P u pw l q s : intermediate_code_on B P u pw l q s = intermediate_code P u pw l q s.
  Proof. unfold intermediate_code_on, intermediate_code. cbv zeta. repeat step. Qed.
  Lemma bind_ok {A C} (m : res A) (f : A -> res C) c : bind m f = Ok c -> exists a, m = Ok a /\ f a = Ok c.
  Proof. destruct m as [a|e]; cbn [bind]; [intros E; exists a; auto|discriminate]. Qed.
  Lemma pkg_encrypt P s w pw n : encrypt_on B P s w pw n = encrypt P s w pw n.
  Proof.
    unfold encrypt_on, encrypt. cbv zeta. apply bind_same. intros net _. apply bind_same. intros wt _.
    match goal with |- bind ?a _ = bind ?b _ => assert (E : a = b) end.
    { destruct (str_eqb wt (str "wif")); repeat step. }
    rewrite E. clear E. apply bind_same. intros [[f sk] t] E.
    assert (S : exists l, PrivateKey_from_bytes l = Ok sk).
    { destruct (str_eqb wt (str "wif"));
      repeat match type of E with bind _ _ = Ok _ => apply bind_ok in E; destruct E as (? & ? & E) end; injection E as <- <- <-; eauto. }
    clear E. destruct S as [l S]. rewrite (pkg_secret _ _ S). repeat step.
  Qed.
  Lemma pkg_create P u s i t sd n : create_new_encrypted_wif_on B P u s i t sd n = create_new_encrypted_wif P u s i t sd n.
  Proof.
    unfold create_new_encrypted_wif_on, create_new_encrypted_wif. cbv zeta.
    do 3 step. match goal with |- (if negb (Nat.eqb (List.length ?d) 49) then _ else _) = _ =>
      destruct (Nat.eqb (List.length d) 49) eqn:L; cbn [negb]; [apply Nat.eqb_eq in L|reflexivity] end. do 5 step.
    match goal with |- (if negb ?c then _ else _) = _ => destruct c eqn:R; cbn [negb]; [|reflexivity] end.
    apply andb_prop in R. destruct R as [R1 R2]. apply Z.ltb_lt in R1, R2. repeat step.
  Qed.
  Lemma xor_16 b c l : xor_bytes b c = Ok l -> List.length b = 16%nat -> List.length c = 16%nat -> (List.length l <= 16)%nat.
  Proof.
    intros X Lb Lc. rewrite xor_bytes_eq in X by lia. injection X as <-.
    assert (LX : List.length (xor b c) = 16%nat) by (rewrite xor_length; lia). pose proof (strip_zeros_length (xor b c)) as S.
    unfold shortest. destruct (strip_zeros (xor b c)); [cbn; lia|lia].
  Qed.
  Lemma aes_16 P k a b : prims_ok P -> List.length k = 32%nat -> aes_decrypt P k a = Ok b -> List.length b = 16%nat.
  Proof.
    intros HP Lk. unfold aes_decrypt. destruct (Nat.eqb (List.length a) 16) eqn:E; [|discriminate]. apply Nat.eqb_eq in E.
    intros X. injection X as <-. apply (aes_dec_len P HP); assumption.
  Qed.
  Lemma aes_key k a : aes_new k = Ok a -> List.length k = 32%nat -> List.length a = 32%nat.
  Proof. unfold aes_new. cbv zeta. destruct (_ || _)%bool; [|discriminate]. intros E. congruence. Qed.
  Lemma one_byte a z l : integer_to_bytes (Z.lxor (bytes_to_integer a) (Z.land z 1)) = Ok l -> List.length a = 1%nat -> List.length l = 1%nat.
  Proof.
    intros X La. revert X. assert (Z1 : exists c, Z.land z 1 = be2z [c]).
    { change 1 with (Z.ones 1). rewrite Z.land_ones by lia. pose proof (Z.mod_pos_bound z (2 ^ 1) ltac:(lia)).
      assert (C : z mod 2 ^ 1 = 0 \/ z mod 2 ^ 1 = 1) by lia. destruct C as [-> | ->]; [exists x00|exists x01]; reflexivity. }
    destruct Z1 as [c ->]. rewrite bytes_to_integer_be2z, lxor_integer_to_bytes_eq by (rewrite La; reflexivity). intros X. injection X as <-.
    assert (LX : List.length (xor a [c]) = 1%nat) by (rewrite xor_length; rewrite La; reflexivity). pose proof (strip_zeros_length (xor a [c])) as S.
    unfold shortest. destruct (strip_zeros (xor a [c])); [reflexivity|cbn in *; lia].
  Qed.
  Lemma pkg_confirm P s pw c n d : prims_ok P \/ reads_every_form B -> confirm_code_on B P s pw c n d = confirm_code P s pw c n d.
  Proof.
    intros HR. unfold confirm_code_on, confirm_code. cbv zeta. do 2 step. match goal with |- (if negb (Nat.eqb (List.length ?d) 51) then _ else _) = _ =>
      destruct (Nat.eqb (List.length d) 51) eqn:L; cbn [negb]; [apply Nat.eqb_eq in L|reflexivity] end.
    step. destruct (negb (bytes_eqb _ _)); [reflexivity|]. apply bind_same. intros [q ls] D. apply derived_range in D.
    repeat step.
    match goal with |- bind ?a _ = bind ?b _ => assert (I : a = b) end.
    { match goal with |- context [b_from_bytes B ?l] => assert (F : b_from_bytes B l = PublicKey_from_bytes l) end.
      { destruct HR as [HP|R]; [|apply every_form, R]. apply pkg_from_bytes. 
        repeat match goal with
        | E : aes_new (from 32 ?h) = Ok ?a |- _ => apply aes_key in E; [|rewrite from_length, (scrypt_len P HP); reflexivity]
        | K : List.length ?a = 32%nat, E : aes_decrypt P ?a _ = Ok ?b |- _ => apply (aes_16 P) in E; [|exact HP|exact K]
        end.
        
        match goal with E : integer_to_bytes (Z.lxor _ _) = Ok ?a |- _ => apply one_byte in E; [|rewrite upto_length; [reflexivity|rewrite from_length; lia]] end.
        repeat match goal with
        | X : xor_bytes ?b ?c = Ok ?l |- _ => apply xor_16 in X; [|assumption|first [rewrite slice_length by (rewrite (scrypt_len P HP); lia); reflexivity|rewrite upto_length; [reflexivity|rewrite (scrypt_len P HP); lia]]]
        end.
        rewrite !app_length. lia. }
      rewrite F. clear F. destruct (PublicKey_from_bytes _) as [pb|e] eqn:F; cbn [bind]; [|reflexivity].
      rewrite pkg_point; [reflexivity|exact (pkg_from_bytes_ok _ _ F)|exact D]. }
    rewrite I. clear I. apply bind_same. intros [k t] I.
    assert (K : pk_ok k).
    { destruct (PublicKey_from_bytes _) as [pb|e]; cbn [bind] in I; [|destruct (is_secp256k1_error e); discriminate].
      destruct (PublicKey_from_point _) as [k'|e] eqn:F; cbn [bind] in I; [|destruct (is_secp256k1_error e); discriminate].
      injection I as <- _. exact (pkg_point_ok _ _ F). }
    clear I. repeat step.
  Qed.
  Lemma pkg_decrypt_no_ec P s d pw n dt : decrypt_no_ec_on B P s d pw n dt = decrypt_no_ec P s d pw n dt.
  Proof.
    unfold decrypt_no_ec_on, decrypt_no_ec. cbv zeta. repeat step.
  Qed.
  Lemma pkg_decrypt_ec P s d pw n dt : decrypt_ec_on B P s d pw n dt = decrypt_ec P s d pw n dt.
  Proof.
    unfold decrypt_ec_on, decrypt_ec. cbv zeta. repeat step.
  Qed.
  Lemma pkg_decrypt P s e pw n dt : decrypt_on B P s e pw n dt = decrypt P s e pw n dt.
  Proof.
    unfold decrypt_on, decrypt. cbv zeta. repeat step; rewrite ?pkg_decrypt_no_ec, ?pkg_decrypt_ec; reflexivity.
  Qed.
End Package.

(** ** C95: the methods give the same results over every package that keeps to SEC 1 *)
Theorem C95_intermediate_code : forall B, keeps_to_sec1 B -> forall P u pw lot seq salt,
  intermediate_code_on B P u pw lot seq salt = intermediate_code P u pw lot seq salt.
Proof. intros B H. intros. apply pkg_intermediate, H. Qed.
Theorem C95_encrypt : forall B, keeps_to_sec1 B -> forall P self wif pw net,
  encrypt_on B P self wif pw net = encrypt P self wif pw net.
Proof. intros B H. intros. apply pkg_encrypt, H. Qed.
Theorem C95_create_new_encrypted_wif : forall B, keeps_to_sec1 B -> forall P u self code t seed net,
  create_new_encrypted_wif_on B P u self code t seed net = create_new_encrypted_wif P u self code t seed net.
Proof. intros B H. intros. apply pkg_create, H. Qed.
Theorem C95_confirm_code : forall B, keeps_to_sec1 B -> forall P, prims_ok P -> forall self pw code net detail,
  confirm_code_on B P self pw code net detail = confirm_code P self pw code net detail.
Proof. intros B H P HP. intros. apply pkg_confirm; [exact H|left; exact HP]. Qed.
Theorem C95_decrypt : forall B, keeps_to_sec1 B -> forall P self ewif pw net detail,
  decrypt_on B P self ewif pw net detail = decrypt P self ewif pw net detail.
Proof. intros B H. intros. apply pkg_decrypt, H. Qed.
(** An address of a PublicKey object whose point is on the curve; and, over a package that
    reads the other forms of public keys too, of a public key as bytes or text *)
Theorem C95_address : forall B, keeps_to_sec1 B -> forall P k prefix t alphabet,
  on_curve (Aff (pk_x k) (pk_y k)) ->
  P2PKH_encode_on B P (PKObj k) prefix t alphabet = P2PKH_encode P (PKObj k) prefix t alphabet.
Proof. intros B H P k prefix t al O. apply pkg_p2pkh; [exact H|intros k' E; injection E as <-; exact O|discriminate]. Qed.
Theorem C95_every_form : forall B, keeps_to_sec1 B -> reads_every_form B ->
  (forall P d prefix t alphabet, P2PKH_encode_on B P (PKData d) prefix t alphabet = P2PKH_encode P (PKData d) prefix t alphabet) /\
  (forall P self pw code net detail, confirm_code_on B P self pw code net detail = confirm_code P self pw code net detail).
Proof.
  intros B H R. split; intros.
  - apply pkg_p2pkh; [exact H|discriminate|intros; exact R].
  - apply pkg_confirm; [exact H|right; exact R].
Qed.

(** The copies over the package of [Secp256k1.v] are the model itself. *)
Theorem C95_standard :
  (forall P u pw lot seq salt, intermediate_code_on standard P u pw lot seq salt = intermediate_code P u pw lot seq salt) /\
  (forall P self wif pw net, encrypt_on standard P self wif pw net = encrypt P self wif pw net) /\
  (forall P u self code t seed net, create_new_encrypted_wif_on standard P u self code t seed net = create_new_encrypted_wif P u self code t seed net) /\
  (forall P self pw code net detail, confirm_code_on standard P self pw code net detail = confirm_code P self pw code net detail) /\
  (forall P self ewif pw net detail, decrypt_on standard P self ewif pw net detail = decrypt P self ewif pw net detail) /\
  (forall P a prefix t alphabet, P2PKH_encode_on standard P a prefix t alphabet = P2PKH_encode P a prefix t alphabet).
Proof. split; [|split; [|split; [|split; [|split]]]]; intros; reflexivity. Qed.

Lemma standard_keeps : keeps_to_sec1 standard.
Proof.
  constructor; cbn [standard b_private b_secret b_public b_from_bytes b_mul b_from_point b_compressed b_uncompressed].
  - intros l e S. apply PrivateKey_from_bytes_iff. exact S.
  - intros l N. destruct (PrivateKey_from_bytes l) as [[e]|x] eqn:E.
    + apply PrivateKey_from_bytes_iff in E. exfalso. exact (N _ E).
    + rewrite (PrivateKey_from_bytes_err _ _ E). reflexivity.
  - intros l e S. apply (PrivateKey_raw_id l). apply PrivateKey_from_bytes_iff. exact S.
  - intros e x y R Q. destruct (public_key_ok e R) as ([u w] & F & M & O). rewrite F.
    apply ec_multiple_iff in Q; [|exact G_on]. rewrite Z2N.id in Q by lia. unfold PublicKey_point in M. cbn [pk_x pk_y] in M.
    assert (Q' : Aff u w = Aff x y) by (change secp_G with G in Q; congruence). injection Q' as <- <-. reflexivity.
  - intros l x y [O C]. apply PublicKey_from_bytes_iff. split; [exact O|left; exact C].
  - intros l L N. destruct (PublicKey_from_bytes l) as [[x y]|e] eqn:E.
    + apply PublicKey_from_bytes_iff in E. exfalso. cbn [pk_x pk_y] in E. destruct E as [O [C|[C|[C|C]]]].
      * apply (N x y). split; [exact O|exact C].
      * apply uncompressed_length in C. lia.
      * apply raw_xy_length in C. lia.
      * apply hybrid_length in C. lia.
    + exact (f_equal Raise (PublicKey_from_bytes_err _ _ E)).
  - intros x y e R O He M. apply ec_multiple_iff in M; [|exact O]. rewrite Z2N.id in M by lia. symmetry; exact M.
  - intros x y O. apply PublicKey_from_point_iff. split; [reflexivity|exact O].
  - intros x y l O S. apply raw_compressed_iff; [exact O|exact S].
  - intros x y l O S. apply raw_uncompressed_iff; [exact O|exact S].
Qed.
Lemma number_to_string_O_ok z l : number_to_string z = Ok l -> number_to_string_O z = Ok l.
Proof.
  unfold number_to_string, number_to_string_O. destruct (z <? 0); [discriminate|]. destruct (z <? 2 ^ 256); [exact (fun E => E)|].
  match goal with |- context [if ?c then _ else _] => destruct c end; discriminate.
Qed.
Lemma optimised_keeps : keeps_to_sec1 optimised.
Proof.
  destruct standard_keeps as [a b c d e f g h i j].
  constructor; cbn [standard optimised b_private b_secret b_public b_from_bytes b_mul b_from_point b_compressed b_uncompressed] in *; try assumption.
  - intros x y O. unfold PublicKey_from_point_O. apply valid_public_point_iff in O. rewrite O. reflexivity.
  - intros x y l O S. specialize (i x y l O S). unfold raw_compressed in i. unfold raw_compressed_O.
    cbn [pk_x pk_y] in *. destruct (number_to_string x) as [xs|z] eqn:E; [|discriminate]. rewrite (number_to_string_O_ok _ _ E). exact i.
  - intros x y l O S. specialize (j x y l O S). unfold raw_uncompressed in j. unfold raw_uncompressed_O.
    cbn [pk_x pk_y] in *. destruct (number_to_string x) as [xs|z] eqn:E; [|discriminate]. rewrite (number_to_string_O_ok _ _ E). cbn [bind] in *.
    destruct (number_to_string y) as [ys|z] eqn:F; [|discriminate]. rewrite (number_to_string_O_ok _ _ F). exact j.
Qed.
Lemma ecdsa_reads_every_form B : b_from_bytes B = PublicKey_from_bytes -> reads_every_form B.
Proof.
  intros E. constructor; rewrite E.
  - intros l x y D. apply PublicKey_from_bytes_iff. exact D.
  - intros l N. destruct (PublicKey_from_bytes l) as [[x y]|e] eqn:F.
    + apply PublicKey_from_bytes_iff in F. exfalso. exact (N _ _ F).
    + exact (f_equal Raise (PublicKey_from_bytes_err _ _ F)).
Qed.
(** A package that reads compressed public keys only, refuses anything else in any way,
    and does anything at all with points off the curve and other exponents *)
Definition strict (refusal : exn) (other : pt) : backend := {|
  b_private := PrivateKey_from_bytes;
  b_secret := PrivateKey_raw;
  b_public := PrivateKey_public_key;
  b_from_bytes := fun l => if Nat.leb (List.length l) 33 then PublicKey_from_bytes l else Raise refusal;
  b_mul := fun k e => if (1 <=? e) && (e <? secp_n) then Point_mul (PublicKey_point k) e else other;
  b_from_point := fun p => match PublicKey_from_point p with Ok k => Ok k | Raise _ => Raise refusal end;
  b_compressed := fun k => match raw_compressed k with Ok l => Ok l | Raise _ => Raise refusal end;
  b_uncompressed := fun k => match raw_uncompressed k with Ok l => Ok l | Raise _ => Raise refusal end
|}.
Lemma strict_keeps r o : keeps_to_sec1 (strict r o).
Proof.
  destruct standard_keeps as [a b c d e f g h i j].
  constructor; cbn [standard strict b_private b_secret b_public b_from_bytes b_mul b_from_point b_compressed b_uncompressed] in *; try assumption.
  - intros l x y C. rewrite (e l x y C). destruct C as [_ C]. apply compressed_length in C. rewrite C. reflexivity.
  - intros l L N. apply Nat.leb_le in L. rewrite L. apply f; [apply Nat.leb_le; exact L|exact N].
  - intros x y z R O Z M. destruct (Z.leb_spec 1 z); [|lia]. destruct (Z.ltb_spec z secp_n); [|lia]. cbn [andb]. apply g; assumption.
  - intros x y O. rewrite (h x y O). reflexivity.
  - intros x y l O S. rewrite (i x y l O S). reflexivity.
  - intros x y l O S. rewrite (j x y l O S). reflexivity.
Qed.
(** The package as it is, the package under python -O, and any strict one keep to SEC 1
    (so the theorems above are about packages that exist). *)
Theorem C95_packages : keeps_to_sec1 standard /\ reads_every_form standard /\
  keeps_to_sec1 optimised /\ reads_every_form optimised /\ (forall refusal other, keeps_to_sec1 (strict refusal other)).
Proof.
  split; [exact standard_keeps|]. split; [apply ecdsa_reads_every_form; reflexivity|]. split; [exact optimised_keeps|].
  split; [apply ecdsa_reads_every_form; reflexivity|exact strict_keeps].
Qed.
(** python -O changes no result of a method of BIP38. *)
Theorem C95_python_O :
  (forall P u pw lot seq salt, intermediate_code_on optimised P u pw lot seq salt = intermediate_code P u pw lot seq salt) /\
  (forall P self wif pw net, encrypt_on optimised P self wif pw net = encrypt P self wif pw net) /\
  (forall P u self code t seed net, create_new_encrypted_wif_on optimised P u self code t seed net = create_new_encrypted_wif P u self code t seed net) /\
  (forall P self pw code net detail, confirm_code_on optimised P self pw code net detail = confirm_code P self pw code net detail) /\
  (forall P self ewif pw net detail, decrypt_on optimised P self ewif pw net detail = decrypt P self ewif pw net detail) /\
  (forall P d prefix t alphabet, P2PKH_encode_on optimised P (PKData d) prefix t alphabet = P2PKH_encode P (PKData d) prefix t alphabet).
Proof.
  pose proof optimised_keeps as K. assert (R : reads_every_form optimised) by (apply ecdsa_reads_every_form; reflexivity).
  split; [|split; [|split; [|split; [|split]]]]; intros; [| | | | |apply C95_every_form; assumption];
    [apply pkg_intermediate|apply pkg_encrypt|apply pkg_create|apply pkg_confirm|apply pkg_decrypt]; try exact K.
  right. exact R.
Qed.

(** ** What python -O does change: points that are not on the curve *)
(** PublicKey.from_point still accepts the points of the curve and no others; the
    refusal of coordinates that do not satisfy the equation is another exception. *)
Theorem C95_from_point_accepts : forall p k,
  PublicKey_from_point_O p = Ok k <-> p = Aff (pk_x k) (pk_y k) /\ on_curve p.
Proof.
  intros p [x y]. cbn [pk_x pk_y]. unfold PublicKey_from_point_O. destruct p as [|u w].
  - split; [discriminate|]. intros [E _]. discriminate.
  - destruct (valid_public_point u w) eqn:V.
    + apply valid_public_point_iff in V. split; [intros E; injection E as <- <-; auto|intros [E _]; injection E as <- <-; reflexivity].
    + split; [discriminate|]. intros [E O]. apply valid_public_point_iff in O. congruence.
Qed.
Theorem C95_from_point_refuses : forall x y, ~ on_curve (Aff x y) ->
  PublicKey_from_point_O (Aff x y) = Raise (Lib CSecp256k1Error "Invalid public key point") /\
  (cong (y * y) (x * x * x + 7) -> PublicKey_from_point (Aff x y) = Raise (Lib CSecp256k1Error "Invalid public key point")) /\
  (~ cong (y * y) (x * x * x + 7) -> PublicKey_from_point (Aff x y) = Raise (Builtin AssertionError)).
Proof.
  intros x y N. assert (V : valid_public_point x y = false).
  { destruct (valid_public_point x y) eqn:V; [|reflexivity]. apply valid_public_point_iff in V. contradiction. }
  unfold PublicKey_from_point_O, PublicKey_from_point. rewrite V. split; [reflexivity|]. split.
  - intros C. apply contains_point_iff in C. rewrite C. reflexivity.
  - intros C. destruct (contains_point x y) eqn:D; [|reflexivity]. apply contains_point_iff in D. contradiction.
Qed.
(** Point.from_coordinates: without -O exactly the pairs that satisfy the equation,
    with -O every pair; where both accept, they give the same point. *)
Theorem C95_from_coordinates : forall x y,
  Point_from_coordinates_O x y = Ok (Aff x y) /\
  (cong (y * y) (x * x * x + 7) -> Point_from_coordinates x y = Ok (Aff x y)) /\
  (~ cong (y * y) (x * x * x + 7) -> Point_from_coordinates x y = Raise (Builtin AssertionError)).
Proof.
  intros x y. split; [reflexivity|]. unfold Point_from_coordinates. split; intros C.
  - apply contains_point_iff in C. rewrite C. reflexivity.
  - destruct (contains_point x y) eqn:D; [|reflexivity]. apply contains_point_iff in D. contradiction.
Qed.
(** What the classes return without -O they also return with it: leaving out the
    assertions never changes a result, it only removes AssertionError. *)
Lemma number_to_string_O_err z e : number_to_string z = Raise e -> e <> Builtin AssertionError -> number_to_string_O z = Raise e.
Proof.
  unfold number_to_string, number_to_string_O. destruct (z <? 0); [intros E _; exact E|]. destruct (z <? 2 ^ 256); [discriminate|].
  match goal with |- context [if ?c then _ else _] => destruct c end; intros E N; [congruence|exact E].
Qed.


(** [kept r r']: whatever [r] gives, other than AssertionError, [r'] gives too *)
Definition kept {A} (r r' : res A) : Prop := r <> Raise (Builtin AssertionError) -> r' = r.
Lemma kept_number z : kept (number_to_string z) (number_to_string_O z).
Proof.
  intros N. destruct (number_to_string z) as [l|e] eqn:E; [apply number_to_string_O_ok, E|].
  apply number_to_string_O_err; [exact E|congruence].
Qed.
Lemma kept_bind {A C} (m m' : res A) (f f' : A -> res C) : kept m m' -> (forall a, kept (f a) (f' a)) -> kept (bind m f) (bind m' f').
Proof.
  intros K F N. destruct m as [a|e]; cbn [bind] in *.
  - rewrite K by discriminate. apply F, N.
  - rewrite K by congruence. reflexivity.
Qed.
Lemma kept_refl {A} (r : res A) : kept r r. Proof. intros _. reflexivity. Qed.
Theorem C95_only_assertions_go : 
  (forall p, PublicKey_from_point p <> Raise (Builtin AssertionError) -> PublicKey_from_point_O p = PublicKey_from_point p) /\
  (forall x y, Point_from_coordinates x y <> Raise (Builtin AssertionError) -> Point_from_coordinates_O x y = Point_from_coordinates x y) /\
  (forall p, Point_raw_encoded p <> Raise (Builtin AssertionError) -> Point_raw_encoded_O p = Point_raw_encoded p) /\
  (forall p, Point_raw_decoded p <> Raise (Builtin AssertionError) -> Point_raw_decoded_O p = Point_raw_decoded p) /\
  (forall k, raw_compressed k <> Raise (Builtin AssertionError) -> raw_compressed_O k = raw_compressed k) /\
  (forall k, raw_uncompressed k <> Raise (Builtin AssertionError) -> raw_uncompressed_O k = raw_uncompressed k).
Proof.
  split; [|split; [|split; [|split; [|split]]]].
  - intros [|x y]; [reflexivity|]. unfold PublicKey_from_point, PublicKey_from_point_O.
    destruct (contains_point x y) eqn:C; cbn [negb]; [reflexivity|]. intros N. exfalso. apply N. reflexivity.
  - intros x y. unfold Point_from_coordinates, Point_from_coordinates_O. destruct (contains_point x y); [reflexivity|].
    intros N. exfalso. apply N. reflexivity.
  - intros [|x y]; [reflexivity|]. apply kept_bind; [apply kept_number|]. intros a. apply kept_refl.
  - intros [|x y]; [reflexivity|]. apply kept_bind; [apply kept_number|]. intros a.
    apply kept_bind; [apply kept_number|]. intros b. apply kept_refl.
  - intros [x y]. apply kept_bind; [apply kept_number|]. intros a. apply kept_refl.
  - intros [x y]. apply kept_bind; [apply kept_number|]. intros a.
    apply kept_bind; [apply kept_number|]. intros b. apply kept_refl.
Qed.
(** And what is then returned in place of an AssertionError by the raw forms is never
    an encoding of a point: it is longer than one. *)
Theorem C95_overlong : forall z l, number_to_string z = Raise (Builtin AssertionError) -> number_to_string_O z = Ok l ->
  fixed_bytes (List.length l) z l /\ (32 < List.length l)%nat.
Proof.
  intros z l. unfold number_to_string, number_to_string_O. destruct (Z.ltb_spec z 0) as [|Z0]; [discriminate|].
  destruct (Z.ltb_spec z (2 ^ 256)) as [|Z1]; [discriminate|].
  assert (L : 256 <= Z.log2 z) by (rewrite <- (Z.log2_pow2 256) by lia; apply Z.log2_le_mono; exact Z1).
  assert (S : z < 2 ^ Z.succ (Z.log2 z)) by (apply Z.log2_spec; lia).
  assert (Q := Z.div_mod (Z.log2 z) 4 ltac:(lia)). assert (R := Z.mod_pos_bound (Z.log2 z) 4 ltac:(lia)).
  set (h := Z.log2 z / 4 + 1). destruct (Z.even h) eqn:E; [|discriminate]. intros _ H.
  assert (Hl : z2be (Z.to_nat (h / 2)) z = l) by congruence. clear H. subst l.
  apply Z.even_spec in E. destruct E as [k Hk]. assert (Hh : h / 2 = k) by (rewrite Hk, Z.mul_comm, Z.div_mul; lia).
  assert (LL : List.length (z2be (Z.to_nat (h / 2)) z) = Z.to_nat (h / 2)) by apply z2be_length.
  rewrite LL. split.
  - apply fixed_z2be. split; [lia|]. rewrite Z2Nat.id by lia. rewrite Hh. change 256 with (2 ^ 8). rewrite <- Z.pow_mul_r by lia.
    eapply Z.lt_le_trans; [exact S|]. apply Z.pow_le_mono_r; lia.
  - lia.
Qed.
(** Cases: (1, 1) is not on the curve; 2^260 + 2^256 has 66 hexadecimal digits *)
Example C95_ex_point :
  PublicKey_from_point (Aff 1 1) = Raise (Builtin AssertionError) /\
  PublicKey_from_point_O (Aff 1 1) = Raise (Lib CSecp256k1Error "Invalid public key point") /\
  Point_from_coordinates 1 1 = Raise (Builtin AssertionError) /\ Point_from_coordinates_O 1 1 = Ok (Aff 1 1).
Proof. vm_compute. repeat split. Qed.
Example C95_ex_overlong :
  raw_compressed {| pk_x := 2 ^ 260 + 2 ^ 256; pk_y := 3 |} = Raise (Builtin AssertionError) /\
  raw_compressed_O {| pk_x := 2 ^ 260 + 2 ^ 256; pk_y := 3 |} = Ok (x03 :: x11 :: repeat x00 32).
Proof. vm_compute. split; reflexivity. Qed.
