(** What it means for a log of heap events to be free of memory errors and leaks.
    Independent of any particular program: an object is named by a number, and the log
    lists allocations, frees and uses in the order they happened. *)
From Coq Require Import List Arith.
Import ListNotations.

Inductive hev : Type := HAlloc (o : nat) | HFree (o : nat) | HTouch (o : nat).

(** nothing is freed or used before it exists, freed twice, or used after its free *)
Definition mem_safe (log : list hev) : Prop :=
  forall l1 e l2, log = l1 ++ e :: l2 ->
    match e with
    | HAlloc o => ~ In (HAlloc o) l1
    | HFree o => In (HAlloc o) l1 /\ ~ In (HFree o) l1
    | HTouch o => In (HAlloc o) l1 /\ ~ In (HFree o) l1
    end.

Definition is_free (o : nat) (e : hev) : bool :=
  match e with HFree o' => o =? o' | _ => false end.
Definition frees (o : nat) (log : list hev) : nat := length (filter (is_free o) log).

(** every object allocated is freed exactly once *)
Definition freed_once (log : list hev) : Prop :=
  forall o, In (HAlloc o) log -> frees o log = 1.
(** some object is never freed *)
Definition leaks (log : list hev) : Prop :=
  exists o, In (HAlloc o) log /\ frees o log = 0.
