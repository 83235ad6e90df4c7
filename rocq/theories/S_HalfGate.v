(** Half gates as in Zahur, Rosulek, Evans, "Two Halves Make a Whole" (2015), with a tweakable
    hash of a label and a number; the permutation-based hash  pi(s xor j) xor s xor j  with
    s = sigma(label) and the number j in the upper half of the block. *)
From Coq Require Import List NArith Bool.
From Verif Require Import S_Circuit.
Local Open Scope N_scope.

Section S.
Variable H : N -> N -> N.
Variable delta : N.
(** [a], [b]: labels of the value 0; the gate uses the numbers [j] and [j + 1] *)
Definition garbler_half (a b j : N) : N :=
  N.lxor (N.lxor (H a j) (H (N.lxor a delta) j)) (if N.odd b then delta else 0).
Definition evaluator_half (a b j : N) : N :=
  N.lxor (N.lxor (H b (j + 1)) (H (N.lxor b delta) (j + 1))) a.
Definition gate_out (a b j : N) : N :=
  let wg := N.lxor (H a j) (if N.odd a then garbler_half a b j else 0) in
  let we := N.lxor (H b (j + 1)) (if N.odd b then N.lxor (evaluator_half a b j) a else 0) in
  N.lxor wg we.
End S.
Definition label_hash (sigma pi : N -> N) (x j : N) : N :=
  let s := N.lxor (sigma x) (j * 2 ^ 64) in N.lxor (pi s) s.
(** number of AND gates of a circuit *)
Definition ands (l : list instr) : nat := length (filter (fun c => match c with IAnd _ _ => true | _ => false end) l).
