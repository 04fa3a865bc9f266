(** * Copies: objects that are copied, pickled into other processes, or forked.

    bip38.py:79-88 gives an object four attributes: a class, the list of names
    [list(cryptocurrency.NETWORKS.keys())] (a new list), and two texts; it
    defines neither [__copy__] nor [__reduce__] nor [__getstate__].  So
    [copy.copy(object)] is a new object with the same attributes - with the same
    list; [copy.deepcopy(object)], and [pickle.loads(pickle.dumps(object))] in
    this or another process, is one with a new list of the same names.  The
    class travels as its name and is the receiving process's own class, with
    that process's table.  [__init__] is not run.  [os.fork] copies a process
    with all it has.  Here lists are objects that several BIP38 objects can
    hold, and a program may change them in place.

    os.urandom is the operating system's: the processes take turns with one
    source.

    Simplifications: those of Worlds.v; a list assigned to [object.networks] is a
    new one or another object's. *)
From Verif Require Import Py Prims Cryptocurrencies Bip38 History Worlds.

(** An object with the number of its list; a process; the system *)
Record held := { l_class : nat; l_names : nat; l_network : pystr; l_alphabet : pystr }.
Record site := { s_classes : nat -> coin; s_lists : list (list pystr); s_objects : list (res held) }.
Record system := { sites : nat -> site; drawn : nat }.

(** What a process sees: a world of Worlds.v *)
Definition open (s : site) (r : res held) : res object :=
  match r with
  | Ok o => Ok {| o_class := l_class o; o_networks := nth (l_names o) (s_lists s) []; o_network := l_network o; o_alphabet := l_alphabet o |}
  | Raise e => Raise e
  end.
Definition sees (S : system) (p : nat) : world :=
  {| classes := s_classes (sites S p); objs := List.map (open (sites S p)) (s_objects (sites S p)); used := drawn S |}.

(** In process [p]: *)
Inductive sop :=
| Do (p : nat) (o : wop)                      (* an operation of Worlds.v *)
| Share (p i j : nat)                         (* object i.networks = object j.networks *)
| Edit (p i : nat) (names : list pystr)       (* object i.networks[:] = names; append, remove, sort, clear ... *)
| Copy (p i : nat)                            (* copy.copy(object i) *)
| Send (p i q : nat)                          (* process q: pickle.loads(what p got from pickle.dumps(object i)); p = q: copy.deepcopy *)
| Fork (p q : nat).                           (* os.fork(); q is the child *)

Definition set_site (S : system) (p : nat) (s : site) : system :=
  {| sites := fun q => if Nat.eqb q p then s else sites S q; drawn := drawn S |}.
Definition with_objects (s : site) (l : list (list pystr)) (os : list (res held)) : site :=
  {| s_classes := s_classes s; s_lists := l; s_objects := os |}.
Definition on_held (s : site) (i : nat) (f : held -> held) : list (res held) :=
  match nth_error (s_objects s) i with Some (Ok o) => set_nth i (Ok (f o)) (s_objects s) | _ => s_objects s end.
Definition hold (n : nat) (o : object) : held :=
  {| l_class := o_class o; l_names := n; l_network := o_network o; l_alphabet := o_alphabet o |}.

(** What an operation of Worlds.v does to the objects and lists: a new object
    holds a new list, an assignment to [networks] makes one. *)
Definition store (s : site) (o : wop) (W : world) : site :=
  let n := List.length (s_lists s) in
  match o with
  | Make _ _ =>
      match nth_error (objs W) (List.length (s_objects s)) with
      | Some (Ok ob) => with_objects s (s_lists s ++ [o_networks ob]) (s_objects s ++ [Ok (hold n ob)])
      | Some (Raise e) => with_objects s (s_lists s) (s_objects s ++ [Raise e])
      | None => s
      end
  | SetNetworks i l =>
      with_objects s (s_lists s ++ [l]) (on_held s i (fun h => {| l_class := l_class h; l_names := n; l_network := l_network h; l_alphabet := l_alphabet h |}))
  | SetNetwork i m =>
      with_objects s (s_lists s) (on_held s i (fun h => {| l_class := l_class h; l_names := l_names h; l_network := m; l_alphabet := l_alphabet h |}))
  | SetCoin i k =>
      with_objects s (s_lists s) (on_held s i (fun h => {| l_class := k; l_names := l_names h; l_network := l_network h; l_alphabet := l_alphabet h |}))
  | _ => s
  end.

(** An expression on an object that is not there *)
Definition missing (S : system) : system * (bytes * woutcome) := (S, ([], WCall ONoObject)).
Definition fine (S : system) : system * (bytes * woutcome) := (S, ([], WStatement None)).

Definition sexec (P : prims) (source : nat -> byte) (S : system) (o : sop) : system * (bytes * woutcome) :=
  match o with
  | Do p o =>
      let (W, x) := wexec P source (sees S p) o in
      let s := store (sites S p) o W in
      ({| sites := fun q => if Nat.eqb q p then {| s_classes := classes W; s_lists := s_lists s; s_objects := s_objects s |} else sites S q;
          drawn := used W |}, x)
  | Share p i j =>
      let s := sites S p in
      match nth_error (s_objects s) i, nth_error (s_objects s) j with
      | Some (Ok _), Some (Ok oj) =>
          fine (set_site S p (with_objects s (s_lists s)
            (on_held s i (fun h => {| l_class := l_class h; l_names := l_names oj; l_network := l_network h; l_alphabet := l_alphabet h |}))))
      | _, _ => missing S
      end
  | Edit p i l =>
      let s := sites S p in
      match nth_error (s_objects s) i with
      | Some (Ok h) => fine (set_site S p (with_objects s (set_nth (l_names h) l (s_lists s)) (s_objects s)))
      | _ => missing S
      end
  | Copy p i =>
      let s := sites S p in
      match nth_error (s_objects s) i with
      | Some (Ok h) => fine (set_site S p (with_objects s (s_lists s) (s_objects s ++ [Ok h])))
      | _ => missing S
      end
  | Send p i q =>
      let s := sites S q in
      match nth_error (objs (sees S p)) i with
      | Some (Ok ob) => fine (set_site S q (with_objects s (s_lists s ++ [o_networks ob]) (s_objects s ++ [Ok (hold (List.length (s_lists s)) ob)])))
      | _ => missing S
      end
  | Fork p q => fine (set_site S q (sites S p))
  end.
Fixpoint srun (P : prims) (source : nat -> byte) (S : system) (h : list sop) : system * list (bytes * woutcome) :=
  match h with
  | [] => (S, [])
  | o :: r => let (S1, x) := sexec P source S o in
              let (S2, l) := srun P source S1 r in (S2, x :: l)
  end.
(** The start: every process with the classes as it imported them, no objects *)
Definition boot (cs : nat -> nat -> coin) : system :=
  {| sites := fun p => {| s_classes := cs p; s_lists := []; s_objects := [] |}; drawn := 0 |}.
Definition strace (P : prims) (source : nat -> byte) (cs : nat -> nat -> coin) (h : list sop) : list (bytes * woutcome) :=
  snd (srun P source (boot cs) h).
