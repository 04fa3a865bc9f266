(** * SpecSession: the setting of the BIP38 theorems.
    A BIP38 object made by the constructor for some coin, and the prefixes of
    the network a method call uses. *)
From Verif Require Import Py Prims Spec SpecCurve SpecBip38 Cryptocurrencies Bip38.

(** All prefixes of the coin's table are natural numbers (true of every coin of
    the library, theorem C39). *)
Definition coin_ok (c : coin) : Prop :=
  forall n w a, In (n, (w, a)) (c_networks c) -> 0 <= w /\ 0 <= a.
(** The network argument, or the instance's network if it is missing or empty. *)
Definition chosen (network : option pystr) (n0 : pystr) : pystr :=
  match network with Some (x :: r) => x :: r | _ => n0 end.
(** [self] was made by BIP38(coin, n0), and the chosen network has WIF prefix
    [w] and address prefix [a]. *)
Definition session (self : bip38) (network : option pystr) (w a : Z) : Prop :=
  exists c n0, coin_ok c /\ bip38_init (CoinClass c) n0 = Ok self /\
    dict_get (chosen network n0) (c_networks c) = Some (w, a).
(** [self] was made by the constructor. *)
Definition constructed (self : bip38) : Prop :=
  exists c n0, coin_ok c /\ bip38_init (CoinClass c) n0 = Ok self.

(** The dictionary returned by decrypt with detail=True is about the 32-byte key
    [k]: its WIF, key, public key, types and address all belong to [k], for WIF
    prefix [w] and address prefix [a]. *)
Definition describes (P : prims) (w a : Z) (c : bool) (k : bytes) (d : decrypt_detail) : Prop :=
  wif_text P w c k (d_wif d) /\ d_private_key d = hex k /\ d_wif_type d = wif_name c /\
  d_public_key_type d = key_name c /\ key_address P a c k (d_address d) /\
  exists e x y ser, scalar k e /\ public_point e x y /\ serialised c x y ser /\ d_public_key d = hex ser.

(** The bytes an optional owner_salt or seed argument stands for: the random
    bytes if it is missing (None, empty, or another false value), the byte string
    itself, or the bytes of a string of hexadecimal digits. *)
Definition argument_bytes (random : bytes) (arg : pyarg) (b : bytes) : Prop :=
  (arg = PNone \/ arg = PStr [] \/ arg = PBytes [] \/ arg = POther false) /\ b = random \/
  arg = PBytes b /\ b <> [] \/
  (exists s, arg = PStr s /\ s <> [] /\ fromhex s = Some b).
