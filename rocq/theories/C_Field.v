(** Properties C17, C19-C23, C41, C42 and C60: arithmetic protocols over a prime field,
    the modular addition circuit, oblivious polynomial evaluation, the big-number wire
    encoding and the owning wrappers. *)
From Coq Require Import List NArith ZArith Znumtheory Bool Arith Permutation.
From Verif Require Import L_Bits L_Res S_Gcm S_Ec M_EmpInteger M_Block M_Ole2k M_Bn M_Ole M_E2f M_Addmod M_Vope M_Unique
  P_Gf128 P_Bn P_Ole P_E2f P_Addmod P_Vope P_Unique.
Import ListNotations.

Local Open Scope nat_scope.
(** ** C41, C42: wire encoding of big numbers *)
Theorem C41_recv_after_send : forall l rest,
  Forall (fun x : Z => (Z.abs_N x < 256 ^ 1000)%N) l ->
  exists bytes, send_bns l = Ok bytes /\ recv_bns (length l) (bytes ++ rest) = Ok (map Z.abs l, rest).
Proof. exact recv_send_seq. Qed.
Print Assumptions C41_recv_after_send.
(** the bound is the size of the buffer in send_bn: larger numbers overrun it *)
Theorem C41_send_bound : forall x : Z, (256 ^ 1000 <= Z.abs_N x)%N -> send_bn x = UB.
Proof. exact send_bn_big. Qed.
Print Assumptions C41_send_bound.
Example C41_ex : exists b, send_bns [0; 255; 256; 65537]%Z = Ok b /\
  recv_bns 4 (b ++ [9%N]) = Ok ([0; 255; 256; 65537]%Z, [9%N]) /\ length b = 22.
Proof. eexists. split; [vm_compute; reflexivity|]. vm_compute. split; reflexivity. Qed.

Theorem C42_recv_memory_safe_iff : forall s, 4 <= length s ->
  (recv_bn s <> UB <-> (u32_value (firstn 4 s) <= 1000)%N).
Proof. exact recv_bn_safe_iff. Qed.
Print Assumptions C42_recv_memory_safe_iff.
Theorem C42_recv_overflow_refuted : exists s, length s = 4 /\ Forall (fun b => (b < 256)%N) s /\ recv_bn s = UB.
Proof. exact recv_bn_overflow_refuted. Qed.
Print Assumptions C42_recv_overflow_refuted.

Local Open Scope Z_scope.
(** ** C17: oblivious linear evaluation *)
Theorem C17_ole : forall ccrh q bl Delta in_s in_r raw, 1 < q <= 256 ^ 1000 ->
  length in_r = length in_s -> length raw = length in_s -> Forall (fun r => length r = bl) raw ->
  Forall (fun y => 0 <= y < 2 ^ Z.of_nat bl) in_r ->
  exists os or_, ole_compute ccrh q bl Delta raw in_s in_r = Ok (os, or_, []) /\
    length os = length in_s /\ length or_ = length in_s /\
    Forall (fun x => 0 <= x < q) os /\ Forall (fun x => 0 <= x < q) or_ /\
    forall i, (i < length in_s)%nat ->
      (nth i os 0 + nth i or_ 0) mod q = (nth i in_s 0 * nth i in_r 0) mod q.
Proof. exact ole_correct. Qed.
Print Assumptions C17_ole.
Example C17_ex : exists os or_,
  ole_compute (fun x => x * x + 7)%N 101 7 12345 [map N.of_nat (seq 3 7); map N.of_nat (seq 40 7)] [55; 100] [77; 2]
    = Ok (os, or_, []) /\
  map (fun p => (fst p + snd p) mod 101) (combine os or_) = [(55 * 77) mod 101; (100 * 2) mod 101].
Proof. eexists _, _. split; [vm_compute; reflexivity|]. vm_compute. reflexivity. Qed.

(** ** C19: conversion of point shares to field shares *)
Theorem C19_e2f : forall ccrh q bl ra rb Delta raw xa ya xb yb,
  prime q -> 1 < q <= 256 ^ 1000 -> q < 2 ^ Z.of_nat bl ->
  length raw = 5%nat -> Forall (fun r => length r = bl) raw ->
  exists s t, e2f_offline ccrh q bl ra rb Delta raw = Ok (s, t) /\
    (((e_a s + e_a t) mod q = 0 \/ xa mod q = xb mod q) -> e2f_online q s t xa ya xb yb = Err) /\
    ((e_a s + e_a t) mod q <> 0 -> xa mod q <> xb mod q ->
     exists oa ob y3, e2f_online q s t xa ya xb yb = Ok (oa, ob) /\ 0 <= oa < q /\ 0 <= ob < q /\
       chord_sum q xa ya xb yb (oa + ob) y3).
Proof. exact e2f_correct. Qed.
Print Assumptions C19_e2f.
(** the specification determines x3 modulo q, and the sum is again on the curve *)
Theorem C19_chord_unique : forall p x1 y1 x2 y2 x3 y3 x3' y3', prime p -> x1 mod p <> x2 mod p ->
  chord_sum p x1 y1 x2 y2 x3 y3 -> chord_sum p x1 y1 x2 y2 x3' y3' -> congr p x3 x3' /\ congr p y3 y3'.
Proof. exact chord_unique. Qed.
Print Assumptions C19_chord_unique.
Theorem C19_chord_on_curve : forall p a b x1 y1 x2 y2 x3 y3, prime p -> x1 mod p <> x2 mod p ->
  on_curve p a b x1 y1 -> on_curve p a b x2 y2 -> chord_sum p x1 y1 x2 y2 x3 y3 -> on_curve p a b x3 y3.
Proof. exact chord_on_curve. Qed.
Print Assumptions C19_chord_on_curve.
Example C19_ex : (* on y^2 = x^3 + 2x + 2 over Z/17: (5,1) + (6,3) = (10,6) *)
  exists s t oa ob,
  e2f_offline (fun x => x * x + 7)%N 17 5 {| rnd_a := 3; rnd_b := 5; rnd_bp := 11; rnd_r := 2 |}
    {| rnd_a := 9; rnd_b := 1; rnd_bp := 4; rnd_r := 8 |} 12345 (map (fun i => map N.of_nat (seq i 5)) (seq 2 5)) = Ok (s, t) /\
  e2f_online 17 s t 5 1 6 3 = Ok (oa, ob) /\ (oa + ob) mod 17 = 10 /\ (e_a s + e_a t) mod 17 <> 0.
Proof. eexists _, _, _, _. split; [vm_compute; reflexivity|]. split; [vm_compute; reflexivity|]. vm_compute. split; [reflexivity|discriminate]. Qed.

(** ** C20: the values a mask can take, and that some are missing *)
Theorem C20_mask_values : forall q bl v, (1 <= bl)%nat -> 2 ^ (Z.of_nat bl - 1) < q < 2 ^ Z.of_nat bl ->
  ((exists rnd, e2f_mask q bl rnd = v) <->
   (2 ^ (Z.of_nat bl - 1) <= v < q \/ 0 <= v < 2 ^ Z.of_nat bl - q)).
Proof. exact mask_support. Qed.
Print Assumptions C20_mask_values.
Theorem C20_mask_support_refuted : exists q bl v, q = p256 /\ bl = 256%nat /\ 0 <= v < q /\
  forall rnd, e2f_mask q bl rnd <> v.
Proof. exact mask_support_refuted. Qed.
Print Assumptions C20_mask_support_refuted.
Theorem C20_opened_excludes_inputs_refuted : exists q bl opened x, q = p256 /\ bl = 256%nat /\ 0 <= x < q /\
  forall rnd, BN_mod_sub x (e2f_mask q bl rnd) q <> opened.
Proof. exact opened_excludes_inputs_refuted. Qed.
Print Assumptions C20_opened_excludes_inputs_refuted.

(** ** C21, C22: modular addition *)
Theorem C21_addmod : forall a b (q : Z), 0 < q ->
  length a = (8 * BN_num_bytes q)%nat -> length b = (8 * BN_num_bytes q)%nat ->
  Z.of_N (N_of_bits a) + Z.of_N (N_of_bits b) < 2 * q ->
  exists r, addmod_bn a b q = Ok r /\ length r = (8 * BN_num_bytes q)%nat /\
    Z.of_N (N_of_bits r) = (Z.of_N (N_of_bits a) + Z.of_N (N_of_bits b)) mod q.
Proof. exact addmod_bn_ok. Qed.
Print Assumptions C21_addmod.
Theorem C21_addmod_shared_modulus : forall a b Q n, length a = n -> length b = n -> length Q = n ->
  (N_of_bits a + N_of_bits b < 2 * N_of_bits Q)%N ->
  exists r, addmod a b Q = Ok (r, Q ++ [false; false]) /\ length r = n /\
    N_of_bits r = ((N_of_bits a + N_of_bits b) mod N_of_bits Q)%N.
Proof. exact addmod_ok. Qed.
Print Assumptions C21_addmod_shared_modulus.
Example C21_ex : exists r, addmod_bn (bits_of_N 8 250) (bits_of_N 8 249) 251 = Ok r /\ N_of_bits r = 248%N.
Proof. eexists. split; vm_compute; reflexivity. Qed.
(** every second call with the same modulus object is undefined *)
Theorem C22_second_call : forall a b Q n, length a = n -> length b = n -> length Q = n ->
  addmod a b (Q ++ [false; false]) = UB.
Proof. exact addmod_again. Qed.
Print Assumptions C22_second_call.
Theorem C22_reuse_refuted : exists a b Q r Q', addmod a b Q = Ok (r, Q') /\ Q' <> Q /\ addmod a b Q' = UB.
Proof. exact addmod_reuse_refuted. Qed.
Print Assumptions C22_reuse_refuted.

(** ** C23: vector oblivious polynomial evaluation; [gf] is the product inside emp's packing *)
Local Open Scope N_scope.
Theorem C23_vope : forall gf : N -> N -> N,
  (forall b x y, gf (N.lxor x y) b = N.lxor (gf x b) (gf y b)) ->
  (forall a x y, gf a (N.lxor x y) = N.lxor (gf a x) (gf a y)) ->
  (forall a b, a < 2 ^ 128 -> b < 2 ^ 128 -> gf a b = gf_mul a b) ->
  forall len out0 K bits h Delta, (1 <= len <= 64)%nat ->
  length K = (128 * (2 * len - 1))%nat -> length bits = (128 * (2 * len - 1))%nat ->
  (len + 1 <= length out0)%nat -> h < 2 ^ 128 -> Forall (fun x => x < 2 ^ 128) K ->
  exists o r, vope_run gf out0 len K bits h Delta = Ok (o, r) /\ length r = length out0 /\
    o = poly_eval h (firstn (len + 1) r).
Proof. exact vope_ok. Qed.
Print Assumptions C23_vope.
(** the product used by mulBlock qualifies *)
Theorem C23_hypotheses_met :
  (forall b x y, mulBlock (N.lxor x y) b = N.lxor (mulBlock x b) (mulBlock y b)) /\
  (forall a x y, mulBlock a (N.lxor x y) = N.lxor (mulBlock a x) (mulBlock a y)) /\
  (forall a b, a < 2 ^ 128 -> b < 2 ^ 128 -> mulBlock a b = gf_mul a b).
Proof. exact (conj (proj1 mulBlock_bi) (conj (proj2 mulBlock_bi) mulBlock_gf)). Qed.
Print Assumptions C23_hypotheses_met.
(** for length 65 the aliasing of U with M destroys an entry before it is used *)
Theorem C23_length_65_refuted : exists K bits h Delta out0,
  length K = (128 * (2 * 65 - 1))%nat /\ length bits = (128 * (2 * 65 - 1))%nat /\ length out0 = 66%nat /\
  Forall (fun x => x < 2 ^ 128) K /\ h < 2 ^ 128 /\ Delta < 2 ^ 128 /\
  exists o r, vope_run mulBlock out0 65 K bits h Delta = Ok (o, r) /\ o <> poly_eval h (firstn (65 + 1) r).
Proof. exact vope_65_refuted. Qed.
Print Assumptions C23_length_65_refuted.

(** ** C60: owning wrappers *)
Theorem C60_freed_once : forall k p rs a, k = KBN \/ k = KGroup \/ k = KBytes ->
  NoDup (flat_map free_if (p :: rs)) -> In (Some a) (p :: rs) -> count_occ N.eq_dec (u_life k p rs) a = 1%nat.
Proof. exact unique_once. Qed.
Print Assumptions C60_freed_once.
Theorem C60_freed_exactly : forall k p rs, k = KBN \/ k = KGroup \/ k = KBytes -> u_life k p rs = flat_map free_if (p :: rs).
Proof. exact owning_life. Qed.
Print Assumptions C60_freed_exactly.
(** UniqueBytes through any resets, moves and releases: every pointer put in is freed once or
    given away once *)
Theorem C60_moves : forall p os, let (freed, given) := u_ops p os in
  Permutation (freed ++ given) (free_if p ++ flat_map op_arg os).
Proof. exact moves_once. Qed.
Print Assumptions C60_moves.
Example C60_moves_ex : u_ops (Some 1%N) [UMove; UReset (Some 2%N); URelease; UReset (Some 3%N); UMove] = ([1; 3]%N, [2%N]).
Proof. reflexivity. Qed.
Theorem C60_point_ctx_drop_argument : forall k p rs, k = KPoint \/ k = KCtx -> u_life k p rs = flat_map free_if rs.
Proof. exact dropping_life. Qed.
Print Assumptions C60_point_ctx_drop_argument.
Theorem C60_leak_refuted : exists k p rs, ~ In p (u_life k (Some p) rs).
Proof. exact unique_leak_refuted. Qed.
Print Assumptions C60_leak_refuted.
Example C60_ex : u_life KBN (Some 1) [Some 2; None; Some 3] = [1; 2; 3] /\ u_life KCtx (Some 1) [Some 2] = [2].
Proof. vm_compute. split; reflexivity. Qed.
