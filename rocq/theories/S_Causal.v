(** What one party knows of the requests to the backend: everything but the bits the peer feeds.
    Independent of the model. *)
From Coq Require Import List NArith Bool Arith.
From Verif Require Import S_Netlist.
Import ListNotations.

(** a request with the bits of the peer's input left out; [alice]: seen from ALICE *)
Definition peer (alice : bool) (p : owner) : bool := match p with OA => negb alice | OB => alice | OPub => false end.
Definition own_part (alice : bool) (e : nev) : nev :=
  match e with
  | EFeed p bs => if peer alice p then EFeed p (repeat false (length bs)) else EFeed p bs
  | _ => e
  end.
(** the number of openings among the requests *)
Fixpoint n_open (tr : list nev) : nat :=
  match tr with [] => 0 | EReveal _ _ :: t => S (n_open t) | _ :: t => n_open t end.
(** what was answered to the openings, oldest first *)
Fixpoint answers (orc : list nev -> nat -> bool) (tr : list nev) : list (list bool) :=
  match tr with
  | [] => []
  | EReveal p ws :: t => answers orc t ++ [map (orc (EReveal p ws :: t)) (seq 0 (length ws))]
  | _ :: t => answers orc t
  end.
(** opened values taken from a list, in order: the answer to the k-th opening is the k-th entry; later
    openings are answered with zeros *)
Definition replay (seen : list (list bool)) (tr : list nev) (i : nat) : bool :=
  nth i (nth (n_open tr - 1) seen []) false.
(** traces are kept newest first: the first n requests *)
Definition first_reqs (n : nat) (tr : list nev) : list nev := skipn (length tr - n) tr.
