(** What an evaluator of half gates can and cannot hash, and the change of the random values that
    explains its view with other inputs. *)
From Coq Require Import List NArith Bool.
From Verif Require Import S_Circuit.
Import ListNotations.
Local Open Scope N_scope.

(** the argument of the permutation for a label and a hash number; numbers count modulo 2^64 *)
Definition hash_point (sigma : N -> N) (x j : N) : N := N.lxor (sigma x) ((j mod 2 ^ 64) * 2 ^ 64).
(** the AND gates of a circuit with their numbers *)
Fixpoint gates (k : N) (prog : list instr) : list (N * nat * nat) :=
  match prog with
  | [] => []
  | IAnd i j :: t => (k, i, j) :: gates (k + 1) t
  | _ :: t => gates k t
  end.
(** the AND gates with no constant input, numbered without the others *)
Fixpoint live_gates (n : N) (k : list (option bool)) (prog : list instr) : list (N * nat * nat) :=
  match prog with
  | [] => []
  | c :: t =>
      match c with
      | IAnd i j => match kind k i, kind k j with None, None => [(n, i, j)] | _, _ => [] end
      | _ => []
      end ++ live_gates (n + N.of_nat (live_and k c)) (kind_step k c) t
  end.
Section V.
(** [gs]: the garbled gates with their numbers *)
Variables (sigma : N -> N) (delta : N) (gs : list (N * nat * nat)).
(** [l]: the labels the evaluator holds, one per wire; the points at which it evaluates the
    permutation, and those at which only the garbler does *)
Definition known_points (l : list N) : list N :=
  flat_map (fun '(k, i, j) => [hash_point sigma (nth i l 0) (2 * k); hash_point sigma (nth j l 0) (2 * k + 1)]) gs.
Definition unknown_points (l : list N) : list N :=
  flat_map (fun '(k, i, j) => [hash_point sigma (N.lxor (nth i l 0) delta) (2 * k); hash_point sigma (N.lxor (nth j l 0) delta) (2 * k + 1)])
    gs.
(** values at the unknown points by which a run on the wire values [w] differs from one on [w'] *)
Definition differences (l : list N) (w w' : list bool) : list (N * N) :=
  flat_map (fun '(k, i, j) =>
      [(hash_point sigma (N.lxor (nth i l 0) delta) (2 * k), if xorb (wire w j) (wire w' j) then delta else 0);
       (hash_point sigma (N.lxor (nth j l 0) delta) (2 * k + 1), if xorb (wire w i) (wire w' i) then delta else 0)])
    gs.
Definition shift (l : list N) (w w' : list bool) (p : N) : N :=
  fold_right (fun e acc => if p =? fst e then N.lxor (snd e) acc else acc) 0 (differences l w w').
End V.
(** the input bits of a circuit in the order in which they are fed *)
Definition inputs (prog : list instr) : list bool := flat_map (fun c => match c with IFeed _ bits => bits | _ => [] end) prog.
(** the input bits of one party *)
Definition inputs_of (p : party) (prog : list instr) : list (list bool) :=
  flat_map (fun c => match c, p with IFeed ALICE bits, ALICE | IFeed BOB bits, BOB => [bits] | _, _ => [] end) prog.
(** BOB's input bits of the requests that fit into a buffer of the given size *)
Definition buffered_inputs (bs : nat) (prog : list instr) : list bool :=
  flat_map (fun c => match c with IFeed BOB bits => if Nat.ltb bs (length bits) then [] else bits | _ => [] end) prog.
(** what the opened values tell a party *)
Definition told (p : party) (o : list (party * list bool)) : list (list bool) :=
  flat_map (fun v => match fst v, p with
                     | PUBLIC, _ | ALICE, ALICE | BOB, BOB => [snd v]
                     | _, _ => []
                     end) o.
