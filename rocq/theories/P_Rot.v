(** Left rotation. *)
From Coq Require Import List NArith Bool Arith Lia.
From Verif Require Import L_Bits L_Res M_EmpInteger M_Utils P_Sha256.
Import ListNotations.

Lemma lrot_rrot x s : s <= length x -> lrot_int x s = rrot_int x (length x - s).
Proof.
  intro H. unfold lrot_int, rrot_int, ixor. replace (length x - (length x - s)) with s by lia. apply bxor_comm.
Qed.
Lemma lrot_eq x s : s <= length x -> lrot_int x s = skipn (length x - s) x ++ firstn (length x - s) x.
Proof. intro H. rewrite lrot_rrot, rrot_int_eq by lia. reflexivity. Qed.
Lemma swap_app {A} (a b : list A) n : n = length b -> skipn n (b ++ a) ++ firstn n (b ++ a) = a ++ b.
Proof. intros ->. rewrite skipn_app, firstn_app, skipn_all, firstn_all, Nat.sub_diag. cbn. now rewrite app_nil_r. Qed.
Theorem rotations x s : s <= length x ->
  lrot_int x s = skipn (length x - s) x ++ firstn (length x - s) x /\
  lrot_int (rrot_int x s) s = x /\ rrot_int (lrot_int x s) s = x.
Proof.
  intro H. split; [now apply lrot_eq|]. split.
  - rewrite lrot_eq by (rewrite rrot_int_length; lia). rewrite rrot_int_length, rrot_int_eq by lia.
    rewrite swap_app by (rewrite skipn_length; lia). apply firstn_skipn.
  - rewrite rrot_int_eq by (rewrite lrot_eq, app_length, skipn_length, firstn_length; lia). rewrite lrot_eq by lia.
    rewrite swap_app by (rewrite skipn_length; lia). apply firstn_skipn.
Qed.
Local Open Scope N_scope.
Theorem lrot_value x s : (s <= length x)%nat ->
  N_of_bits (lrot_int x s) = (2 ^ N.of_nat s * N_of_bits x) mod 2 ^ N.of_nat (length x) + N_of_bits x / 2 ^ N.of_nat (length x - s).
Proof.
  intro H. rewrite lrot_eq by exact H. set (k := (length x - s)%nat). 
  rewrite N_of_bits_app, skipn_length. replace (length x - k)%nat with s by lia.
  assert (X : N_of_bits x = N_of_bits (firstn k x) + 2 ^ N.of_nat k * N_of_bits (skipn k x)).
  { rewrite <- (firstn_skipn k x) at 1. rewrite N_of_bits_app, firstn_length. now replace (Nat.min k (length x)) with k by lia. }
  rewrite X.
  set (u := N_of_bits (firstn k x)). set (v := N_of_bits (skipn k x)).
  assert (U : u < 2 ^ N.of_nat k). { unfold u. replace k with (length (firstn k x)) at 2 by (rewrite firstn_length; lia). apply N_of_bits_lt. }
  assert (P : 2 ^ N.of_nat (length x) = 2 ^ N.of_nat s * 2 ^ N.of_nat k) by (rewrite <- N.pow_add_r; f_equal; lia).
  rewrite P. assert (Z : forall n, 2 ^ n <> 0) by (intro; apply N.pow_nonzero; discriminate).
  rewrite N.mul_mod_distr_l by auto. rewrite (N.mul_comm (2 ^ N.of_nat k) v), N.mod_add by auto. rewrite N.div_add by auto.
  rewrite (N.mod_small u), (N.div_small u) by exact U. lia.
Qed.
