(** * Interrupts: a process whose calls may be cut short.

    Python raises KeyboardInterrupt, an exception of a signal handler, or
    MemoryError between any two steps of a call; the call then ends there.
    What it has done up to that point is at most this: the methods of BIP38
    assign only to local variables, and take random bytes once
    (bip38.py:122, 263); the constructor assigns to the attributes of an object
    that nobody gets to see (bip38.py:71-88: the expression BIP38(...) has no
    value when __init__ raises).  So an interrupted call leaves a trace only in
    the random source, if it got as far as taking bytes from it.
    Simplification: os.urandom either has handed out all bytes or none. *)
From Verif Require Import Py Prims Cryptocurrencies Bip38 History.

(** A call that ends by itself, or one that is interrupted before ([false]) or
    after ([true]) the place at which it takes random bytes, if it comes there.
    Objects are numbered by the constructor calls that ended by themselves. *)
Inductive iop := Whole (o : op) | Cut (o : op) (late : bool).

(** The state after it, the random bytes it took, its outcome ([None] if it was
    interrupted) *)
Definition iexec (P : prims) (source : nat -> byte) (s : state) (o : iop) : state * (bytes * option outcome) :=
  match o with
  | Whole o => let (s1, x) := exec P source s o in (s1, (fst x, Some (snd x)))
  | Cut o late =>
      let (s1, x) := exec P source s o in
      if late then ({| objects := objects s; taken := taken s1 |}, (fst x, None)) else (s, ([], None))
  end.
Fixpoint irun (P : prims) (source : nat -> byte) (s : state) (h : list iop) : state * list (bytes * option outcome) :=
  match h with
  | [] => (s, [])
  | o :: r => let (s1, x) := iexec P source s o in
              let (s2, l) := irun P source s1 r in (s2, x :: l)
  end.
Definition itrace (P : prims) (source : nat -> byte) (h : list iop) : list (bytes * option outcome) := snd (irun P source initial h).
