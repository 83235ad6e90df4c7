(** What the receiver of the oblivious linear evaluation can and cannot hash. *)
From Coq Require Import List NArith ZArith.
Import ListNotations.
Local Open Scope N_scope.

(** of the two strings r and r xor Delta of one correlated OT, the receiver with choice bit b
    holds the first of these and not the second *)
Definition held (Delta r : N) (b : bool) : N := if b then N.lxor r Delta else r.
Definition withheld (Delta r : N) (b : bool) : N := if b then r else N.lxor r Delta.
(** the receiver's choices: the low bits of its number *)
Definition choices (n : nat) (x : Z) : list bool := map (fun i => Z.testbit x (Z.of_nat i)) (seq 0 n).
(** the two points at which the field hash of a string calls the hash function *)
Definition hash_points (p : N) : list N := [N.lxor p 1; N.lxor p 2].
Fixpoint strings (f : N -> bool -> N) (row : list N) (bits : list bool) : list N :=
  match row, bits with r :: row, b :: bits => f r b :: strings f row bits | _, _ => [] end.
Fixpoint points (f : N -> bool -> N) (n : nat) (rows : list (list N)) (xs : list Z) : list N :=
  match rows, xs with
  | row :: rows, x :: xs => flat_map hash_points (strings f row (choices n x)) ++ points f n rows xs
  | _, _ => []
  end.
