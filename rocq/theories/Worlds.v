(** * Worlds: a process that also changes the coins' tables and the attributes
    of its objects.

    bip38.py reads [cryptocurrency.NETWORKS] at two times: the constructor
    copies the names of the networks (lines 79-81), and a method looks up the
    prefixes of the chosen network when it is called (lines 203, 309, 452, 552,
    627 and, in the conversions of WIFs, wif.py:122, 145, 167, 189).
    A Python program may change the table, and the attributes [network],
    [networks] and [cryptocurrency] of an object, in between; nothing in the
    library prevents it.  History.v is the case in which it does not.

    Simplifications: the classes of the process are numbered, each with a table
    of its own (true of cryptocurrencies.py, in which every class has its own
    dict literal); a table's values are dicts with exactly the two keys
    "wif_prefix" and "address_prefix"; new values have the types of the old. *)
From Verif Require Import Py Prims Cryptocurrencies Bip38 History.

(** An object: its class is held by reference, its names by value
    (bip38.py:79-88). *)
Record object := { o_class : nat; o_networks : list pystr; o_network : pystr; o_alphabet : pystr }.
Record world := { classes : nat -> coin; objs : list (res object); used : nat }.

Inductive wop :=
| Make (k : nat) (network : pystr)                    (* BIP38(class k, network) *)
| Call (o : op)                                       (* a method call *)
| Put (k : nat) (name : pystr) (w a : Z)              (* class.NETWORKS[name] = {"wif_prefix": w, "address_prefix": a} *)
| PutWif (k : nat) (name : pystr) (w : Z)             (* class.NETWORKS[name]["wif_prefix"] = w *)
| PutAddress (k : nat) (name : pystr) (a : Z)         (* class.NETWORKS[name]["address_prefix"] = a *)
| Del (k : nat) (name : pystr)                        (* del class.NETWORKS[name] *)
| SetNetwork (i : nat) (name : pystr)                 (* object.network = name *)
| SetNetworks (i : nat) (names : list pystr)          (* object.networks = names *)
| SetCoin (i : nat) (k : nat).                        (* object.cryptocurrency = class k *)

(** What an operation shows: the outcome of a call, or the exception of a
    statement, if any. *)
Inductive woutcome := WCall (o : outcome) | WStatement (raised : option exn).

(** Assignment to an item of a dict: in place, or at the end (Python dicts keep
    the order of insertion). *)
Fixpoint dict_put {A} (n : pystr) (v : A) (d : list (pystr * A)) : list (pystr * A) :=
  match d with
  | [] => [(n, v)]
  | (m, x) :: r => if str_eqb n m then (m, v) :: r else (m, x) :: dict_put n v r
  end.
(** del of an item *)
Definition dict_del {A} (n : pystr) (d : list (pystr * A)) : list (pystr * A) :=
  List.filter (fun e => negb (str_eqb n (fst e))) d.
Definition with_table (c : coin) (t : list (pystr * (Z * Z))) : coin :=
  {| c_name := c_name c; c_networks := t; c_alphabet := c_alphabet c |}.
Definition set_table (W : world) (k : nat) (t : list (pystr * (Z * Z))) : world :=
  {| classes := fun j => if Nat.eqb j k then with_table (classes W k) t else classes W j;
     objs := objs W; used := used W |}.
(** A statement that looks up an item first *)
Definition at_item (W : world) (k : nat) (name : pystr) (f : Z * Z -> list (pystr * (Z * Z))) : world * (bytes * woutcome) :=
  match dict_get name (c_networks (classes W k)) with
  | Some v => (set_table W k (f v), ([], WStatement None))
  | None => (W, ([], WStatement (Some (Builtin KeyError))))
  end.

(** Assignment to an attribute of the i-th object *)
Fixpoint set_nth {A} (i : nat) (v : A) (l : list A) : list A :=
  match l, i with
  | [], _ => []
  | _ :: r, O => v :: r
  | x :: r, S i => x :: set_nth i v r
  end.
Definition set_object (W : world) (i : nat) (f : object -> object) : world * (bytes * woutcome) :=
  match nth_error (objs W) i with
  | Some (Ok o) => ({| classes := classes W; objs := set_nth i (Ok (f o)) (objs W); used := used W |}, ([], WStatement None))
  | _ => (W, ([], WCall ONoObject))
  end.

(** The object as its methods see it now: with its class's present table *)
Definition now (W : world) (r : res object) : res bip38 :=
  match r with
  | Ok o => Ok {| s_cryptocurrency := classes W (o_class o); s_networks := o_networks o;
                  s_network := o_network o; s_alphabet := o_alphabet o |}
  | Raise e => Raise e
  end.
Definition snapshot (W : world) : state := {| objects := List.map (now W) (objs W); taken := used W |}.

Definition wexec (P : prims) (source : nat -> byte) (W : world) (o : wop) : world * (bytes * woutcome) :=
  match o with
  | Make k n =>
      (* bip38.py:71-88 with the present table *)
      let r := match bip38_init (CoinClass (classes W k)) n with
               | Ok self => Ok {| o_class := k; o_networks := s_networks self; o_network := s_network self; o_alphabet := s_alphabet self |}
               | Raise e => Raise e
               end in
      ({| classes := classes W; objs := objs W ++ [r]; used := used W |},
       ([], WCall (ONew (match r with Ok _ => None | Raise e => Some e end))))
  | Call o =>
      let (s, x) := exec P source (snapshot W) o in
      ({| classes := classes W; objs := objs W; used := taken s |}, (fst x, WCall (snd x)))
  | Put k n w a => (set_table W k (dict_put n (w, a) (c_networks (classes W k))), ([], WStatement None))
  | PutWif k n w => at_item W k n (fun v => dict_put n (w, snd v) (c_networks (classes W k)))
  | PutAddress k n a => at_item W k n (fun v => dict_put n (fst v, a) (c_networks (classes W k)))
  | Del k n => at_item W k n (fun _ => dict_del n (c_networks (classes W k)))
  | SetNetwork i n => set_object W i (fun o => {| o_class := o_class o; o_networks := o_networks o; o_network := n; o_alphabet := o_alphabet o |})
  | SetNetworks i l => set_object W i (fun o => {| o_class := o_class o; o_networks := l; o_network := o_network o; o_alphabet := o_alphabet o |})
  | SetCoin i k => set_object W i (fun o => {| o_class := k; o_networks := o_networks o; o_network := o_network o; o_alphabet := o_alphabet o |})
  end.

Fixpoint wrun (P : prims) (source : nat -> byte) (W : world) (h : list wop) : world * list (bytes * woutcome) :=
  match h with
  | [] => (W, [])
  | o :: r => let (W1, x) := wexec P source W o in
              let (W2, l) := wrun P source W1 r in (W2, x :: l)
  end.
(** The start: the classes as they were imported, no objects *)
Definition fresh (cs : nat -> coin) : world := {| classes := cs; objs := []; used := 0 |}.
Definition wtrace (P : prims) (source : nat -> byte) (cs : nat -> coin) (h : list wop) : list (bytes * woutcome) :=
  snd (wrun P source (fresh cs) h).
