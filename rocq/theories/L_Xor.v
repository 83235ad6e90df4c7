(** A decision procedure for XOR identities on N.  No otls content. *)
From Coq Require Import NArith Bool.
Ltac xor_solve :=
  apply N.bits_inj; let i := fresh "i" in intro i; rewrite ?N.lxor_spec, ?N.bits_0;
  repeat match goal with |- context [N.testbit ?a i] => destruct (N.testbit a i) end;
  reflexivity.
