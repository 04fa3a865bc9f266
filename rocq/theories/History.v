(** * History: a process that makes BIP38 objects and calls their methods.

    bip38.py assigns to [self] in [__init__] only (lines 79, 84), so a method
    call leaves the objects as they are; what calls share is the source of
    os.urandom (bip38.py:122, 263).  It is modelled as an unbounded stream of
    bytes, [os.urandom(n)] taking the next n of it.  Simplification: one thread,
    and users do not assign to the attributes of objects. *)
From Verif Require Import Py Prims Cryptocurrencies Bip38.

(** What a process does: a constructor call (bip38.py:71), or a method call on
    the object made by the i-th constructor call (bip38.py:91, 153, 227, 357,
    472; intermediate_code is a classmethod and needs no object). *)
Inductive op :=
| New (cryptocurrency : coin_arg) (network : pystr)
| Intermediate (passphrase : pystr) (lot sequence : option Z) (owner_salt : pyarg)
| Encrypt (i : nat) (wif passphrase : pystr) (network : option pystr)
| Create (i : nat) (intermediate_passphrase wif_type : pystr) (seed : pyarg) (network : option pystr)
| Confirm (i : nat) (passphrase confirmation_code : pystr) (network : option pystr) (detail : bool)
| Decrypt (i : nat) (encrypted_wif passphrase : pystr) (network : option pystr) (detail : bool).

(** What it sees *)
Inductive outcome :=
| ONew (raised : option exn)
| OIntermediate (r : res pystr)
| OEncrypt (r : res pystr)
| OCreate (r : res new_wif)
| OConfirm (r : res confirm_result)
| ODecrypt (r : res decrypt_result)
| ONoObject.   (* the constructor call has not been made or raised *)

(** The objects made so far (with the exceptions of failed constructor calls),
    and the number of random bytes taken so far. *)
Record state := { objects : list (res bip38); taken : nat }.
Definition initial : state := {| objects := []; taken := 0 |}.

(** os.urandom(n) *)
Definition urandom (source : nat -> byte) (s : state) (n : nat) : bytes := List.map source (seq (taken s) n).
Definition take (s : state) (n : nat) : state := {| objects := objects s; taken := taken s + n |}.

Definition with_object (s : state) (i : nat) (f : bip38 -> state * (bytes * outcome)) : state * (bytes * outcome) :=
  match nth_error (objects s) i with
  | Some (Ok self) => f self
  | _ => (s, ([], ONoObject))
  end.

(** One operation: the state after it, the random bytes it took, what it returned. *)
Definition exec (P : prims) (source : nat -> byte) (s : state) (o : op) : state * (bytes * outcome) :=
  match o with
  | New c n =>
      let r := bip38_init c n in
      ({| objects := objects s ++ [r]; taken := taken s |},
       ([], ONew (match r with Ok _ => None | Raise e => Some e end)))
  | Intermediate pw lot sequence salt =>
      (* line 122 is the first line of the method *)
      if truthy salt then (s, ([], OIntermediate (intermediate_code P [] pw lot sequence salt)))
      else let b := urandom source s 8 in
           (take s 8, (b, OIntermediate (intermediate_code P b pw lot sequence salt)))
  | Encrypt i wif pw network => with_object s i (fun self => (s, ([], OEncrypt (encrypt P self wif pw network))))
  | Create i code t seed network => with_object s i (fun self =>
      (* line 263 comes after the selection of the network *)
      match select_network self network with
      | Raise _ => (s, ([], OCreate (create_new_encrypted_wif P [] self code t seed network)))
      | Ok _ =>
          if truthy seed then (s, ([], OCreate (create_new_encrypted_wif P [] self code t seed network)))
          else let b := urandom source s 24 in
               (take s 24, (b, OCreate (create_new_encrypted_wif P b self code t seed network)))
      end)
  | Confirm i pw code network detail => with_object s i (fun self => (s, ([], OConfirm (confirm_code P self pw code network detail))))
  | Decrypt i e pw network detail => with_object s i (fun self => (s, ([], ODecrypt (decrypt P self e pw network detail))))
  end.

(** A whole run: the state at the end and what each operation took and returned. *)
Fixpoint run (P : prims) (source : nat -> byte) (s : state) (h : list op) : state * list (bytes * outcome) :=
  match h with
  | [] => (s, [])
  | o :: r => let (s1, x) := exec P source s o in
              let (s2, l) := run P source s1 r in (s2, x :: l)
  end.
Definition trace (P : prims) (source : nat -> byte) (h : list op) : list (bytes * outcome) := snd (run P source initial h).
