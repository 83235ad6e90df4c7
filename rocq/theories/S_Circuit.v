(** Cleartext meaning of the circuits the two-party backends execute: an instruction list
    over numbered wires; wire k is the k-th wire created. *)
From Coq Require Import List Bool Arith.
Import ListNotations.

Inductive party : Type := ALICE | BOB | PUBLIC.
Inductive instr : Type :=
| IPub (b : bool)                           (* constant wire *)
| IFeed (p : party) (bits : list bool)      (* input wires of ALICE or BOB *)
| IAnd (i j : nat)
| IXor (i j : nat)
| INot (i : nat)
| IReveal (p : party) (ws : list nat).      (* open the listed wires to p *)

Definition wire (w : list bool) (i : nat) : bool := nth i w false.
Definition spec_step (w : list bool) (c : instr) : list bool :=
  match c with
  | IPub b => w ++ [b]
  | IFeed _ bits => w ++ bits
  | IAnd i j => w ++ [wire w i && wire w j]
  | IXor i j => w ++ [xorb (wire w i) (wire w j)]
  | INot i => w ++ [negb (wire w i)]
  | IReveal _ _ => w
  end.
(** what is opened: one entry per reveal *)
Definition spec_opened (w : list bool) (c : instr) : list (party * list bool) :=
  match c with IReveal p ws => [(p, map (wire w) ws)] | _ => [] end.
Fixpoint spec_run (w : list bool) (prog : list instr) : list bool * list (party * list bool) :=
  match prog with
  | [] => (w, [])
  | c :: t => let (w', o) := spec_run (spec_step w c) t in (w', spec_opened w c ++ o)
  end.

(** what the two parties see of an opened value, against the clear value *)
Definition seen (v : party * list bool) (o : party * list bool * list bool) : Prop :=
  let '(p, g, e) := o in
  p = fst v /\ match p with ALICE => g = snd v | BOB => e = snd v | PUBLIC => g = snd v /\ e = snd v end.

(** only existing wires are used and inputs belong to one party *)
Definition wf_instr (n : nat) (c : instr) : bool :=
  match c with
  | IPub _ => true
  | IFeed p _ => match p with PUBLIC => false | _ => true end
  | IAnd i j | IXor i j => (i <? n) && (j <? n)
  | INot i => i <? n
  | IReveal _ ws => forallb (fun i => i <? n) ws
  end.
Definition new_wires (c : instr) : nat :=
  match c with IFeed _ bits => length bits | IReveal _ _ => 0 | _ => 1 end.
Fixpoint wf (n : nat) (prog : list instr) : bool :=
  match prog with [] => true | c :: t => wf_instr n c && wf (n + new_wires c) t end.

(** the circuit without the input values *)
Definition shape (c : instr) : instr :=
  match c with
  | IFeed p bits => IFeed p (repeat false (length bits))
  | _ => c
  end.

(** which wires are constants, by propagation of constants through the gates *)
Definition kind (k : list (option bool)) (i : nat) : option bool := nth i k None.
Definition kind_step (k : list (option bool)) (c : instr) : list (option bool) :=
  match c with
  | IPub b => k ++ [Some b]
  | IFeed _ bits => k ++ repeat None (length bits)
  | IAnd i j => k ++ [match kind k i, kind k j with
                      | Some false, _ | _, Some false => Some false
                      | Some true, x => x
                      | x, Some true => x
                      | None, None => None
                      end]
  | IXor i j => k ++ [match kind k i, kind k j with
                      | Some a, Some b => Some (xorb a b)
                      | _, _ => None
                      end]
  | INot i => k ++ [option_map negb (kind k i)]
  | IReveal _ _ => k
  end.
(** number of AND gates with no constant input *)
Definition live_and (k : list (option bool)) (c : instr) : nat :=
  match c with IAnd i j => match kind k i, kind k j with None, None => 1 | _, _ => 0 end | _ => 0 end.
Fixpoint live_ands (k : list (option bool)) (prog : list instr) : nat :=
  match prog with [] => 0 | c :: t => live_and k c + live_ands (kind_step k c) t end.
