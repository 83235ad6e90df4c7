(** Correctness of the modular addition circuit for every width. *)
From Coq Require Import List NArith ZArith Bool Arith Lia.
From Verif Require Import L_Bits L_Res S_Codec M_EmpInteger M_Utils M_Bn M_Addmod P_Utils P_Bn.
Import ListNotations.
Local Open Scope N_scope.

Lemma N_of_snoc l b : N_of_bits (l ++ [b]) = N_of_bits l + 2 ^ N.of_nat (length l) * N.b2n b.
Proof. rewrite N_of_bits_app. cbn [N_of_bits]. lia. Qed.
Lemma snoc_last (l : list bool) : l <> [] -> l = removelast l ++ [last l false].
Proof. intro H. now apply app_removelast_last. Qed.
Lemma removelast_length {A} (l : list A) : length (removelast l) = (length l - 1)%nat.
Proof. induction l as [|a [|b l] IH]; auto. cbn [removelast length] in *. rewrite IH. lia. Qed.
Lemma sign_bit l n : length l = S n -> last l false = (2 ^ N.of_nat n <=? N_of_bits l).
Proof.
  intro H. rewrite (snoc_last l) at 2 by (intros ->; discriminate). rewrite N_of_snoc.
  pose proof (N_of_bits_lt (removelast l)) as B. rewrite removelast_length, H in *.
  replace (S n - 1)%nat with n in * by lia.
  destruct (last l false); cbn [N.b2n]; symmetry; [apply N.leb_le|apply N.leb_gt]; lia.
Qed.
Lemma N_of_removelast l n : length l = S n -> N_of_bits l < 2 ^ N.of_nat n ->
  N_of_bits (removelast l) = N_of_bits l.
Proof.
  intros H B. pose proof (sign_bit l n H) as S.
  assert (last l false = false) by (rewrite S; apply N.leb_gt; lia).
  rewrite (snoc_last l) at 2 by (intros ->; discriminate). rewrite N_of_snoc, H0. cbn [N.b2n]. lia.
Qed.
Lemma pop2 x n : length x = S (S n) -> N_of_bits x < 2 ^ N.of_nat n ->
  exists r, (let* r := pop_back x in let* r := pop_back r in Ok r)%res = Ok r /\ length r = n /\ N_of_bits r = N_of_bits x.
Proof.
  intros L B.
  assert (P : 2 ^ N.of_nat n < 2 ^ N.of_nat (S n)) by (apply N.pow_lt_mono_r; lia).
  destruct x as [|b x]; [discriminate|]. set (y := b :: x) in *.
  assert (L1 : length (removelast y) = S n) by (rewrite removelast_length; lia).
  assert (E1 := N_of_removelast y (S n) L ltac:(lia)).
  cbn [pop_back y bind]. fold y. 
  change (pop_back y) with (Ok (removelast y)). cbn [bind].
  destruct (removelast y) as [|c z] eqn:Ez; [discriminate|].
  cbn [pop_back bind]. rewrite <- Ez in *. exists (removelast (removelast y)).
  split; [reflexivity|]. split; [rewrite removelast_length; lia|].
  rewrite (N_of_removelast (removelast y) n); auto. lia.
Qed.

Theorem addmod_ok a b Q n : length a = n -> length b = n -> length Q = n ->
  N_of_bits a + N_of_bits b < 2 * N_of_bits Q ->
  exists r, addmod a b Q = Ok (r, Q ++ [false; false]) /\ length r = n /\
    N_of_bits r = (N_of_bits a + N_of_bits b) mod N_of_bits Q.
Proof.
  intros La Lb LQ B. unfold addmod.
  rewrite !app_length, La, Lb. cbn [length]. rewrite Nat.eqb_refl. cbn [negb].
  pose proof (N_of_bits_lt a) as Ba. pose proof (N_of_bits_lt b) as Bb. pose proof (N_of_bits_lt Q) as BQ.
  rewrite La in Ba. rewrite Lb in Bb. rewrite LQ in BQ.
  set (A := N_of_bits a) in *. set (Bv := N_of_bits b) in *. set (q := N_of_bits Q) in *.
  set (p := 2 ^ N.of_nat n) in *.
  assert (P1 : 2 ^ N.of_nat (S n) = 2 * p) by apply pow2_S.
  assert (P2 : 2 ^ N.of_nat (S (S n)) = 4 * p) by (rewrite pow2_S, P1; lia).
  assert (Lc : length (iadd (a ++ [false]) (b ++ [false])) = S n).
  { unfold iadd. rewrite badd_length; rewrite !app_length, ?La, ?Lb; cbn; lia. }
  set (c := iadd (a ++ [false]) (b ++ [false]) ++ [false]).
  assert (Lc' : length c = S (S n)) by (unfold c; rewrite app_length, Lc; cbn; lia).
  assert (Vc : N_of_bits c = A + Bv).
  { unfold c. rewrite N_of_snoc. unfold iadd.
    rewrite N_of_badd by (rewrite !app_length, La, Lb; reflexivity).
    rewrite !N_of_snoc, app_length, La. cbn [length N.b2n]. fold A Bv.
    rewrite Nat.add_1_r, P1, N.mod_small by lia. lia. }
  replace (length (iadd (a ++ [false]) (b ++ [false])) + 1)%nat with (length c) by (unfold c; rewrite app_length; reflexivity).
  change (Q ++ [false] ++ [false]) with (Q ++ [false; false]).
  set (Q' := Q ++ [false; false]).
  assert (LQ' : length Q' = S (S n)) by (unfold Q'; rewrite app_length, LQ; cbn; lia).
  assert (VQ : N_of_bits Q' = q) by (unfold Q'; rewrite N_of_bits_app; cbn [N_of_bits N.b2n]; lia).
  rewrite Lc', LQ. replace (n + (1 + 1))%nat with (S (S n)) by lia. rewrite Nat.eqb_refl. cbn [negb].
  assert (Ls : length (isub c Q') = S (S n)) by (unfold isub; rewrite bsub_length; congruence).
  assert (Vs : N_of_bits (isub c Q') = (A + Bv + 4 * p - q) mod (4 * p)).
  { unfold isub. rewrite N_of_bsub by congruence. rewrite Vc, VQ, Lc', P2. f_equal. lia. }
  assert (G : igeq c Q' = (q <=? A + Bv)).
  { unfold igeq. rewrite (sign_bit _ (S n) Ls), Vs, P1.
    destruct (N.leb_spec q (A + Bv)) as [H|H].
    - replace (A + Bv + 4 * p - q) with ((A + Bv - q) + 1 * (4 * p)) by lia.
      rewrite N.mod_add, N.mod_small by lia. apply negb_true_iff, N.leb_gt. lia.
    - rewrite N.mod_small by lia. apply negb_false_iff, N.leb_le. lia. }
  rewrite G. unfold iselect.
  assert (Q0 : q <> 0) by lia.
  destruct (N.leb_spec q (A + Bv)) as [H|H].
  - assert (V : N_of_bits (isub c Q') = A + Bv - q).
    { rewrite Vs. replace (A + Bv + 4 * p - q) with ((A + Bv - q) + 1 * (4 * p)) by lia.
      rewrite N.mod_add, N.mod_small by lia. reflexivity. }
    destruct (pop2 (isub c Q') n Ls) as (r & Er & Lr & Vr); [fold p; lia|].
    exists r. destruct (pop_back (isub c Q')) as [r1| |]; cbn [bind] in *; try discriminate.
    destruct (pop_back r1) as [r2| |]; cbn [bind] in *; try discriminate. 
    injection Er as ->. split; [reflexivity|]. split; [exact Lr|]. rewrite Vr, V.
    replace (A + Bv) with ((A + Bv - q) + 1 * q) at 2 by lia. now rewrite N.mod_add, N.mod_small by lia.
  - destruct (pop2 c n Lc') as (r & Er & Lr & Vr); [fold p; lia|].
    exists r. destruct (pop_back c) as [r1| |]; cbn [bind] in *; try discriminate.
    destruct (pop_back r1) as [r2| |]; cbn [bind] in *; try discriminate. 
    injection Er as ->. split; [reflexivity|]. split; [exact Lr|]. now rewrite Vr, Vc, N.mod_small by lia.
Qed.

(** a second call with the modulus as the first call left it *)
Theorem addmod_again a b Q n : length a = n -> length b = n -> length Q = n ->
  addmod a b (Q ++ [false; false]) = UB.
Proof.
  intros La Lb LQ. unfold addmod. rewrite !app_length, La, Lb, LQ. cbn [length].
  rewrite Nat.eqb_refl. cbn [negb].
  assert (Lc : length (iadd (a ++ [false]) (b ++ [false])) = S n).
  { unfold iadd. rewrite badd_length; rewrite !app_length, ?La, ?Lb; cbn; lia. }
  rewrite Lc. destruct (Nat.eqb_spec (S n + 1) (n + 2 + (1 + 1))); [lia|reflexivity].
Qed.

Lemma N_of_flat_bytes l : Forall (fun b => b < 256) l -> N_of_bits (flat_map (bits_of_N 8) l) = le_val l.
Proof. apply block_of_bytes_le. Qed.

Theorem addmod_bn_ok a b (q : Z) : (0 < q)%Z ->
  length a = (8 * BN_num_bytes q)%nat -> length b = (8 * BN_num_bytes q)%nat ->
  (Z.of_N (N_of_bits a) + Z.of_N (N_of_bits b) < 2 * q)%Z ->
  exists r, addmod_bn a b q = Ok r /\ length r = (8 * BN_num_bytes q)%nat /\
    Z.of_N (N_of_bits r) = ((Z.of_N (N_of_bits a) + Z.of_N (N_of_bits b)) mod q)%Z.
Proof.
  intros Hq La Lb B. unfold addmod_bn.
  set (Q := int_of_array (8 * BN_num_bytes q) 8 (rev (BN_bn2bin q))).
  assert (F : Forall (fun b => b < 256) (rev (BN_bn2bin q))).
  { apply Forall_rev. unfold BN_bn2bin. rewrite be_bytes_enc. apply be_enc_bytes. }
  assert (L : length (flat_map (bits_of_N 8) (rev (BN_bn2bin q))) = (8 * BN_num_bytes q)%nat).
  { rewrite (flat_map_length_const _ 8); [rewrite rev_length, bn2bin_length; lia|]. intros. apply bits_of_N_length. }
  assert (EQ : Q = flat_map (bits_of_N 8) (rev (BN_bn2bin q))).
  { unfold Q, int_of_array. apply firstn_all2. lia. }
  assert (LQ : length Q = (8 * BN_num_bytes q)%nat) by (rewrite EQ; exact L).
  assert (VQ : Z.of_N (N_of_bits Q) = q).
  { rewrite EQ, N_of_flat_bytes, le_val_rev, rev_involutive by auto.
    rewrite <- bin2bn_val, bin2bn_bn2bin. lia. }
  destruct (addmod_ok a b Q _ La Lb LQ) as (r & E & Lr & Vr); [lia|].
  rewrite E. cbn [bind]. exists r. split; [reflexivity|]. split; [exact Lr|].
  rewrite Vr, N2Z.inj_mod, N2Z.inj_add, VQ by lia. reflexivity.
Qed.
Theorem addmod_reuse_refuted : exists a b Q r Q', addmod a b Q = Ok (r, Q') /\ Q' <> Q /\ addmod a b Q' = UB.
Proof.
  exists [true; false; true], [false; true; true], [true; true; true], [false; false; true], [true; true; true; false; false].
  split; [vm_compute; reflexivity|]. split; [discriminate|vm_compute; reflexivity].
Qed.
