(** * Inherit: a process whose coin classes inherit or share tables of networks.

    bip38.py and wif.py read the table as the attribute [NETWORKS] of the class
    (bip38.py:80, 203, 309, 452, 552, 627; wif.py:122, 145, 167, 189).  Python
    looks such an attribute up along the class's method resolution order: a
    subclass of Bitcoin without a table of its own sees Bitcoin's, the very same
    dict, and sees another one as soon as Bitcoin - or the subclass - is given
    one.  In Worlds.v every class has its own dict for good; here
    [class.NETWORKS = ...] is a statement like any other, and dicts are objects
    that several classes can hold.

    Simplifications: those of Worlds.v about the tables' values; the resolution
    order of a class is fixed; every class sees some table ([all_see_a_table] in
    PropInherit.v); [del class.NETWORKS] and assignments to
    [ALPHABET] (cryptocurrencies.py:15) are left out. *)
From Verif Require Import Py Prims Cryptocurrencies Bip38 History Worlds.

Definition table := list (pystr * (Z * Z)).
(** The classes: the resolution order of each, itself first, and the value of
    ALPHABET it sees (cryptocurrencies.py:12-15) *)
Record family := { resolution : nat -> list nat; alphabet_of : nat -> option pystr }.
(** The process: which dict, by its number, a class holds itself, if any; the
    dicts in order of creation; the objects and the random bytes used, as in
    Worlds.v *)
Record process := { own : nat -> option nat; heap : list table; pobjs : list (res object); pused : nat }.

(** Attribute lookup: the first class in the order that holds a dict *)
Fixpoint first_own (own : nat -> option nat) (order : list nat) : nat :=
  match order with
  | [] => 0%nat
  | k :: r => match own k with Some t => t | None => first_own own r end
  end.
Definition place (F : family) (S : process) (k : nat) : nat := first_own (own S) (resolution F k).
(** The classes as the library sees them now *)
Definition view (F : family) (S : process) : world :=
  {| classes := fun k => {| c_name := str "Coin"; c_networks := nth (place F S k) (heap S) []; c_alphabet := alphabet_of F k |};
     objs := pobjs S; used := pused S |}.

Inductive iop :=
| Item (o : wop)                       (* an operation of Worlds.v *)
| NewTable (k : nat) (t : table)       (* class k.NETWORKS = {...} *)
| ShareTable (k j : nat).              (* class k.NETWORKS = class j.NETWORKS *)

(** The class whose dict a statement changes *)
Definition touched (o : wop) : option nat :=
  match o with Put k _ _ _ | PutWif k _ _ | PutAddress k _ _ | Del k _ => Some k | _ => None end.
Definition bind_own (own : nat -> option nat) (k t : nat) : nat -> option nat :=
  fun j => if Nat.eqb j k then Some t else own j.

Definition iexec (P : prims) (source : nat -> byte) (F : family) (S : process) (o : iop) : process * (bytes * woutcome) :=
  match o with
  | Item o =>
      (* the operation of Worlds.v on the classes as seen; a dict that was
         changed is changed for all that hold it *)
      let (W, x) := wexec P source (view F S) o in
      ({| own := own S;
          heap := match touched o with Some k => set_nth (place F S k) (c_networks (classes W k)) (heap S) | None => heap S end;
          pobjs := objs W; pused := used W |}, x)
  | NewTable k t =>
      ({| own := bind_own (own S) k (List.length (heap S)); heap := heap S ++ [t]; pobjs := pobjs S; pused := pused S |}, ([], WStatement None))
  | ShareTable k j =>
      ({| own := bind_own (own S) k (place F S j); heap := heap S; pobjs := pobjs S; pused := pused S |}, ([], WStatement None))
  end.
Fixpoint irun (P : prims) (source : nat -> byte) (F : family) (S : process) (h : list iop) : process * list (bytes * woutcome) :=
  match h with
  | [] => (S, [])
  | o :: r => let (S1, x) := iexec P source F S o in
              let (S2, l) := irun P source F S1 r in (S2, x :: l)
  end.
(** The start: the classes as they were defined, no objects *)
Definition start (holds : nat -> option nat) (dicts : list table) : process :=
  {| own := holds; heap := dicts; pobjs := []; pused := 0 |}.
Definition itrace (P : prims) (source : nat -> byte) (F : family) (holds : nat -> option nat) (dicts : list table) (h : list iop) : list (bytes * woutcome) :=
  snd (irun P source F (start holds dicts) h).
