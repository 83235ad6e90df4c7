(** Property C97: rotations of circuit integers. *)
From Coq Require Import List NArith Bool Arith.
From Verif Require Import L_Bits L_Res M_EmpInteger M_Utils P_Rot.
Import ListNotations.

(** ** C97: left rotation moves the top bits to the bottom and undoes right rotation *)
Theorem C97_rotations : forall x s, s <= length x ->
  lrot_int x s = skipn (length x - s) x ++ firstn (length x - s) x /\
  lrot_int (rrot_int x s) s = x /\ rrot_int (lrot_int x s) s = x.
Proof. exact rotations. Qed.
Print Assumptions C97_rotations.
Local Open Scope N_scope.
Theorem C97_value : forall x s, (s <= length x)%nat ->
  N_of_bits (lrot_int x s) = (2 ^ N.of_nat s * N_of_bits x) mod 2 ^ N.of_nat (length x) + N_of_bits x / 2 ^ N.of_nat (length x - s).
Proof. exact lrot_value. Qed.
Print Assumptions C97_value.
Example C97_ex : N_of_bits (lrot_int (bits_of_N 32 0x80000001) 4) = 0x18 /\ N_of_bits (rrot_int (bits_of_N 32 0x18) 4) = 0x80000001.
Proof. vm_compute. auto. Qed.
