(** * Threads: several threads of one process calling BIP38 methods.

    What the package does between two threads' calls meets in three places: the
    objects ([self.network], [self.networks], [self.cryptocurrency], which the
    methods read and only [__init__], bip38.py:79 and 84, or the user's own
    assignment writes), and os.urandom.  There is no module-level mutable state
    (const.py and cryptocurrencies.py hold constants that nothing assigns to).  A
    method reads [self.network] once, in its first statement (bip38.py:180,
    258, 386, 503), asks os.urandom at most once (122, 263), and the rest of it uses its
    local variables and [self.cryptocurrency].  So a call is modelled as up to three steps -
    start (read the object), draw, return - between which other threads may do
    anything.  Simplifications: os.urandom is atomic and hands out consecutive
    pieces of one stream; the user assigns to [network] only (not to
    [cryptocurrency] or [networks]); a constructor call and an assignment are one step each. *)
From Verif Require Import Py Prims Cryptocurrencies Bip38 History.

(** What a thread may do next: a constructor or method call, or
    [object.network = network] by the user. *)
Inductive act := Do (o : op) | SetNetwork (i : nat) (network : pystr).
(** What it gets: the number of the new object (bip38.py:71), the outcome of a
    method call, nothing. *)
Inductive result := Made (i : nat) (raised : option exn) | Returned (o : outcome) | Assigned.

(** A method call under way: the object as it was when the call began, and the
    random bytes if they have been drawn. *)
Record running := { r_op : op; r_self : option bip38; r_random : option bytes }.
Record thread := { results : list result; current : option running }.
Record process := { heap : list (res bip38); position : nat; threads : nat -> thread }.
Definition start : process := {| heap := []; position := 0; threads := fun _ => {| results := []; current := None |} |}.

(** The object of a call; None if there is none (yet, or its constructor raised) *)
Definition object (h : list (res bip38)) (i : nat) : option bip38 :=
  match nth_error h i with Some (Ok self) => Some self | _ => None end.
Definition receiver (h : list (res bip38)) (o : op) : option bip38 :=
  match o with
  | New _ _ | Intermediate _ _ _ _ => None
  | Encrypt i _ _ _ | Create i _ _ _ _ | Confirm i _ _ _ _ | Decrypt i _ _ _ _ => object h i
  end.
(** object.network = network *)
Definition set_network (self : bip38) (network : pystr) : bip38 :=
  {| s_cryptocurrency := s_cryptocurrency self; s_networks := s_networks self; s_network := network; s_alphabet := s_alphabet self |}.
Fixpoint replace {A} (l : list A) (i : nat) (x : A) : list A :=
  match l, i with
  | [], _ => []
  | _ :: r, O => x :: r
  | y :: r, S j => y :: replace r j x
  end.

(** How many random bytes a call asks for (bip38.py:122; 263, which comes after
    the selection of the network) *)
Definition asks (o : op) (self : option bip38) : nat :=
  match o, self with
  | Intermediate _ _ _ salt, _ => if truthy salt then 0 else 8
  | Create _ _ _ seed network, Some self =>
      match select_network self network with Raise _ => 0 | Ok _ => if truthy seed then 0 else 24 end
  | _, _ => 0
  end.
(** What a method call returns, given the object and the random bytes *)
Definition finish (P : prims) (o : op) (self : option bip38) (b : bytes) : outcome :=
  match o, self with
  | Intermediate pw lot sequence salt, _ => OIntermediate (intermediate_code P b pw lot sequence salt)
  | Encrypt _ wif pw network, Some self => OEncrypt (encrypt P self wif pw network)
  | Create _ code t seed network, Some self => OCreate (create_new_encrypted_wif P b self code t seed network)
  | Confirm _ pw code network detail, Some self => OConfirm (confirm_code P self pw code network detail)
  | Decrypt _ e pw network detail, Some self => ODecrypt (decrypt P self e pw network detail)
  | _, _ => ONoObject
  end.

Definition set_thread (p : process) (t : nat) (th : thread) : nat -> thread := fun u => if Nat.eqb u t then th else threads p u.

(** One step of thread [t].  A thread chooses what to do next from the results it has
    had so far: [program t results], None when it has finished. *)
Definition step (P : prims) (source : nat -> byte) (program : nat -> list result -> option act) (p : process) (t : nat) : process :=
  let th := threads p t in
  match current th with
  | Some r =>
      let return_with b :=
        {| heap := heap p; position := position p;
           threads := set_thread p t {| results := results th ++ [Returned (finish P (r_op r) (r_self r) b)]; current := None |} |} in
      match r_random r with
      | Some b => return_with b
      | None =>
          match asks (r_op r) (r_self r) with
          | O => return_with []
          | n => {| heap := heap p; position := position p + n;
                    threads := set_thread p t {| results := results th;
                      current := Some {| r_op := r_op r; r_self := r_self r; r_random := Some (List.map source (seq (position p) n)) |} |} |}
          end
      end
  | None =>
      match program t (results th) with
      | None => p
      | Some (Do (New c n)) =>
          let r := bip38_init c n in
          {| heap := heap p ++ [r]; position := position p;
             threads := set_thread p t {| results := results th ++ [Made (List.length (heap p)) (match r with Ok _ => None | Raise e => Some e end)];
                                          current := None |} |}
      | Some (SetNetwork i n) =>
          match object (heap p) i with
          | Some self => {| heap := replace (heap p) i (Ok (set_network self n)); position := position p;
                            threads := set_thread p t {| results := results th ++ [Assigned]; current := None |} |}
          | None => {| heap := heap p; position := position p;
                       threads := set_thread p t {| results := results th ++ [Returned ONoObject]; current := None |} |}
          end
      | Some (Do o) =>
          {| heap := heap p; position := position p;
             threads := set_thread p t {| results := results th; current := Some {| r_op := o; r_self := receiver (heap p) o; r_random := None |} |} |}
      end
  end.

(** A schedule says whose turn it is. *)
Definition run_threads (P : prims) (source : nat -> byte) (program : nat -> list result -> option act) (schedule : list nat) : process :=
  fold_left (step P source program) schedule start.
