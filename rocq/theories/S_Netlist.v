(** What a garbled-circuit backend gets to see of a program: the sequence of gates, input
    feeds and openings it issues, on numbered wires.  Independent of any model. *)
From Coq Require Import List NArith Bool.
Import ListNotations.
Local Open Scope N_scope.

(** a wire is a public constant or the n-th wire created so far *)
Inductive wire := WPub (b : bool) | WId (n : N).
(** who supplies an input, or learns an opened value *)
Inductive owner := OA | OB | OPub.
(** one request to the backend; a feed carries the bits actually supplied *)
Inductive nev :=
| EAnd (a b : wire)
| EXor (a b : wire)
| ENot (a : wire)
| EFeed (p : owner) (bs : list bool)
| EReveal (p : owner) (ws : list wire).

(** the request with the supplied values forgotten *)
Inductive nshape :=
| SAnd (a b : wire)
| SXor (a b : wire)
| SNot (a : wire)
| SFeed (p : owner) (n : N)
| SReveal (p : owner) (ws : list wire).
Definition shape1 (e : nev) : nshape :=
  match e with
  | EAnd a b => SAnd a b
  | EXor a b => SXor a b
  | ENot a => SNot a
  | EFeed p bs => SFeed p (N.of_nat (length bs))
  | EReveal p ws => SReveal p ws
  end.
(** traces are kept newest first *)
Definition shape (tr : list nev) : list nshape := map shape1 tr.

(** the garbled tables a trace needs, in order: the operand wires of its AND gates *)
Fixpoint tables (tr : list nev) : list (wire * wire) :=
  match tr with
  | [] => []
  | EAnd a b :: t => (a, b) :: tables t
  | _ :: t => tables t
  end.
(** number of input bits a party supplies *)
Fixpoint fed (p : owner) (tr : list nev) : N :=
  match tr with
  | [] => 0
  | EFeed q bs :: t =>
      (match p, q with OA, OA | OB, OB | OPub, OPub => N.of_nat (length bs) | _, _ => 0 end)
      + fed p t
  | _ :: t => fed p t
  end.

(** plain evaluation: the value of every wire created, oldest first *)
Definition wval (V : list bool) (w : wire) : bool :=
  match w with WPub b => b | WId n => nth (N.to_nat n) V false end.
Definition outs (V : list bool) (e : nev) : list bool :=
  match e with
  | EAnd a b => [andb (wval V a) (wval V b)]
  | EXor a b => [xorb (wval V a) (wval V b)]
  | ENot a => [negb (wval V a)]
  | EFeed _ bs => bs
  | EReveal _ _ => []
  end.
Fixpoint vals (tr : list nev) : list bool :=
  match tr with
  | [] => []
  | e :: t => vals t ++ outs (vals t) e
  end.
(** the opened values in order, oldest first *)
Fixpoint openings (tr : list nev) : list (owner * list bool) :=
  match tr with
  | [] => []
  | EReveal p ws :: t => openings t ++ [(p, map (wval (vals t)) ws)]
  | _ :: t => openings t
  end.
(** every request uses wires that exist, and inputs come from one of the two parties *)
Definition is_wire (n : nat) (w : wire) : Prop := match w with WPub _ => True | WId k => k < N.of_nat n end.
Definition sound_event (n : nat) (e : nev) : Prop :=
  match e with
  | EAnd a b | EXor a b => is_wire n a /\ is_wire n b
  | ENot a => is_wire n a
  | EFeed p _ => p <> OPub
  | EReveal _ ws => Forall (is_wire n) ws
  end.
Fixpoint sound_trace (tr : list nev) : Prop :=
  match tr with [] => True | e :: t => sound_event (length (vals t)) e /\ sound_trace t end.
