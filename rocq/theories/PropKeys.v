(** * C12, in numbers: the private keys that encrypt and never decrypt *)
From Coq Require Import Lia ZifyBool ZifyNat ZifyN.
From Verif Require Import Py Prims Const Spec PyFacts Utils UtilsFacts Base58 Curve SpecCurve Secp256k1 Cryptocurrencies Wif Bip38
  SpecBip38 SpecRecords SpecSession Bip38Facts PropEncrypt Toy.

Lemma first_zero k n : fixed_bytes 32 n k -> first_byte k = x00 <-> n < 2 ^ 248.
Proof.
  intros [L V]. rewrite be_value_be2z in V. destruct k as [|b k]; [discriminate|]. rewrite be2z_cons in V. cbn [first_byte].
  assert (Lk : zlen k = 31). { unfold zlen. cbn [List.length] in L. lia. }
  pose proof (be2z_bound k) as B. rewrite Lk in V, B. change (256 ^ 31) with (2 ^ 248) in V, B.
  split; intros H.
  - subst b. change (b2z x00) with 0 in V. lia.
  - destruct (Z.eq_dec (b2z b) 0) as [E|E]; [apply b2z_inj; exact E|]. pose proof (b2z_range b). nia.
Qed.
(** A key that encrypt took decrypts to itself exactly if, as a number, it is at least
    2^248; the keys from 1 to 2^248 - 1 are refused. *)
Theorem C12_which_numbers : forall P self network w a c k n s pw e, prims_ok P -> session self network w a ->
  scalar k n -> wif_text P w c k s -> encrypt P self s pw network = Ok e ->
  (2 ^ 248 <= n <-> decrypt P self e pw network false = Ok (DWif s)) /\
  (n < 2 ^ 248 <-> decrypt P self e pw network false = Raise (Lib CSecp256k1Error "Invalid private key bytes")).
Proof.
  intros P self network w a c k n s pw e HP HS K T E. pose proof K as [F _]. pose proof (first_zero k n F) as Z. pose proof F as [L _].
  pose proof (C12_roundtrip P self network w a c k s pw e HP HS L T E) as R.
  pose proof (C12_zero_first_byte_lost P self network w a c k s pw e false HP HS L T E) as N.
  destruct (Z.lt_ge_cases n (2 ^ 248)) as [G|G].
  - specialize (N (proj2 Z G)). rewrite N. split; split; intros H; try reflexivity; try assumption; [lia|discriminate].
  - destruct (R ltac:(intros X; apply Z in X; lia)) as [-> _]. split; split; intros H; try reflexivity; try assumption; [lia|discriminate].
Qed.
Example C12_numbers : scalar (z2be 32 1) 1 /\ 1 < 2 ^ 248 /\ scalar (z2be 32 (2 ^ 248)) (2 ^ 248).
Proof. split; [|split]; [apply key_okb_spec|reflexivity|apply key_okb_spec]; vm_compute; reflexivity. Qed.
