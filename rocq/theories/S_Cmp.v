(** What strncmp takes as equal, stated without the loop. *)
From Coq Require Import List NArith Arith.

(** equal on [n] bytes, or up to and including a first zero byte *)
Definition nul_equal (n : nat) (a b : list N) : Prop :=
  a = b \/ exists k, (k < n)%nat /\ nth k a 0%N = 0%N /\ firstn (S k) a = firstn (S k) b.
