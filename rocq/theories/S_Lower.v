(** A sequence of backend requests (S_Netlist) as a circuit of S_Circuit: the two constants come
    first, then every request in the order in which it was made. *)
From Coq Require Import List NArith Bool.
From Verif Require Import S_Circuit.
From Verif Require S_Netlist.
Import ListNotations.

Definition low_wire (w : S_Netlist.wire) : nat :=
  match w with
  | S_Netlist.WPub false => 0
  | S_Netlist.WPub true => 1
  | S_Netlist.WId n => 2 + N.to_nat n
  end.
Definition low_party (p : S_Netlist.owner) : party :=
  match p with S_Netlist.OA => ALICE | S_Netlist.OB => BOB | S_Netlist.OPub => PUBLIC end.
Definition low (e : S_Netlist.nev) : instr :=
  match e with
  | S_Netlist.EAnd a b => IAnd (low_wire a) (low_wire b)
  | S_Netlist.EXor a b => IXor (low_wire a) (low_wire b)
  | S_Netlist.ENot a => INot (low_wire a)
  | S_Netlist.EFeed p bs => IFeed (low_party p) bs
  | S_Netlist.EReveal p ws => IReveal (low_party p) (map low_wire ws)
  end.
(** traces are kept newest first *)
Definition lower (tr : list S_Netlist.nev) : list instr := IPub false :: IPub true :: map low (rev tr).
Definition low_open (o : S_Netlist.owner * list bool) : party * list bool := (low_party (fst o), snd o).
