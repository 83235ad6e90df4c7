(** Correctness of the GF(2^128) OLE for every randomness. *)
From Coq Require Import List NArith Bool Arith Lia.
From Verif Require Import L_Bits L_Xor M_Ole2k P_Gf128.
Import ListNotations.
Local Open Scope N_scope.

Section P.
Variable gf : N -> N -> N.
Hypothesis gf_l : forall b, additive (fun a => gf a b).
Hypothesis gf_r : forall a, additive (gf a).

Lemma inner_fold l : forall r, fold_left (fun r p => N.lxor r (gf (fst p) (snd p))) l r =
  N.lxor r (fold_left (fun r p => N.lxor r (gf (fst p) (snd p))) l 0).
Proof.
  induction l as [|p l IH]; intro r; cbn [fold_left]; [now rewrite N.lxor_0_r|].
  rewrite IH, (IH (N.lxor 0 _)), N.lxor_0_l. now rewrite N.lxor_assoc.
Qed.
Lemma inner_cons a l b m : inner_prod gf (a :: l) (b :: m) = N.lxor (gf a b) (inner_prod gf l m).
Proof. unfold inner_prod. cbn [combine fold_left fst snd]. now rewrite inner_fold, N.lxor_0_l. Qed.

(** receiver's row minus sender's row is the input at the set bits *)
Lemma row_diff x : forall (r0 r1 : list N) (bits : list bool) (base : list N),
  length r1 = length r0 -> length bits = length r0 -> length base = length r0 ->
  let rot := map (fun q : N * N * bool => if snd q then snd (fst q) else fst (fst q)) (combine (combine r0 r1) bits) in
  let msg := map (fun q => N.lxor (N.lxor (fst q) (snd q)) x) (combine r0 r1) in
  let fin := map (fun q : N * N * bool => if snd q then N.lxor (fst (fst q)) (snd (fst q)) else fst (fst q))
               (combine (combine rot msg) bits) in
  N.lxor (inner_prod gf r0 base) (inner_prod gf fin base) =
  fold_right (fun p acc => N.lxor (if (fst p : bool) then gf x (snd p) else 0) acc) 0 (combine bits base).
Proof.
  induction r0 as [|a r0 IH]; intros [|b r1] [|c bits] [|d base] H1 H2 H3; try discriminate; [reflexivity|].
  cbn zeta. cbn [combine map fst snd]. rewrite !inner_cons. cbn [fold_right fst snd].
  rewrite lxor4. f_equal.
  - destruct c.
    + rewrite <- (gf_l d). f_equal.
      assert (E : N.lxor a (N.lxor b (N.lxor (N.lxor a b) x)) = x); [|exact E].
      xor_solve.
    + apply N.lxor_nilpotent.
  - apply IH; cbn in *; lia.
Qed.

Lemma bit_sum x n : forall y k, 
  fold_right (fun p acc => N.lxor (if (fst p : bool) then gf x (snd p) else 0) acc) 0
    (combine (bits_of_N n y) (map (fun j => N.shiftl 1 (N.of_nat j)) (seq k n))) =
  gf x (N.shiftl (y mod 2 ^ N.of_nat n) (N.of_nat k)).
Proof.
  induction n as [|n IH]; intros y k.
  - cbn. rewrite N.mod_1_r. change (N.shiftl 0 (N.of_nat k)) with (N.shiftl 0 (N.of_nat k)). rewrite ?N.shiftl_0_l. symmetry. apply (additive_0 (gf x)), gf_r.
  - change (bits_of_N (S n) y) with (N.odd y :: bits_of_N n (N.div2 y)).
    cbn [seq map combine fold_right fst snd]. rewrite IH.
    assert (E : y mod 2 ^ N.of_nat (S n) = N.lxor (N.b2n (N.odd y)) (N.shiftl (N.div2 y mod 2 ^ N.of_nat n) 1)).
    { apply N.bits_inj. intro i. rewrite N.lxor_spec, shiftl_bits, !mod_pow_bits.
      destruct i as [|i] using N.peano_ind.
      - rewrite N.bit0_odd. cbn [N.leb N.compare]. cbn.
        replace (0 <? N.of_nat (S n)) with true by (symmetry; apply N.ltb_lt; lia).
        destruct (N.odd y); reflexivity.
      - clear IHi. replace (1 <=? N.succ i) with true by (symmetry; apply N.leb_le; lia).
        replace (N.succ i - 1) with i by lia. cbn [andb].
        replace (N.testbit (N.b2n (N.odd y)) (N.succ i)) with false by (destruct (N.odd y); destruct i; reflexivity).
        rewrite xorb_false_l, N.div2_spec, N.shiftr_spec', N.add_1_r. f_equal.
        destruct (N.ltb_spec (N.succ i) (N.of_nat (S n))), (N.ltb_spec i (N.of_nat n)); try reflexivity; lia. }
    rewrite E, N.shiftl_lxor, (gf_r x). f_equal.
    + destruct (N.odd y); [reflexivity|]. cbn [N.b2n]. rewrite N.shiftl_0_l. symmetry. apply additive_0, gf_r.
    + rewrite N.shiftl_shiftl. do 2 f_equal. lia.
Qed.

Lemma ole_row x y r0 r1 : length r0 = 128%nat -> length r1 = 128%nat -> y < 2 ^ 128 ->
  let rot := map (fun q : N * N * bool => if snd q then snd (fst q) else fst (fst q)) (combine (combine r0 r1) (block_to_bool y)) in
  let msg := map (fun q => N.lxor (N.lxor (fst q) (snd q)) x) (combine r0 r1) in
  let fin := map (fun q : N * N * bool => if snd q then N.lxor (fst (fst q)) (snd (fst q)) else fst (fst q))
               (combine (combine rot msg) (block_to_bool y)) in
  N.lxor (inner_prod gf r0 pack_base) (inner_prod gf fin pack_base) = gf x y.
Proof.
  intros H0 H1 Hy. cbn zeta. rewrite row_diff.
  - unfold block_to_bool, pack_base. rewrite bit_sum, N.shiftl_0_r. f_equal. now apply N.mod_small.
  - congruence.
  - unfold block_to_bool. now rewrite bits_of_N_length.
  - unfold pack_base. now rewrite map_length, seq_length.
Qed.

Theorem ole_run_ok : forall ins_s ins_r raw0 raw1,
  length ins_r = length ins_s -> length raw0 = length ins_s -> length raw1 = length ins_s ->
  Forall (fun r => length r = 128%nat) raw0 -> Forall (fun r => length r = 128%nat) raw1 ->
  Forall (fun y => y < 2 ^ 128) ins_r ->
  let (os, or_) := ole_run gf raw0 raw1 ins_s ins_r in
  length os = length ins_s /\ length or_ = length ins_s /\
  map2 N.lxor os or_ = map2 gf ins_s ins_r.
Proof.
  unfold ole_run, ole_send_out, ole_recv_out, ole_send_msgs, rot_choose.
  induction ins_s as [|x ins_s IH]; intros [|y ins_r] [|r0 raw0] [|r1 raw1] L1 L2 L3 F0 F1 Fy; try discriminate; [auto|].
  inversion F0 as [|? ? A0 F0']; inversion F1 as [|? ? A1 F1']; inversion Fy as [|? ? Ay Fy']; subst.
  cbn in L1, L2, L3. injection L1 as L1. injection L2 as L2. injection L3 as L3.
  destruct (IH ins_r raw0 raw1 L1 L2 L3 F0' F1' Fy') as (B1 & B2 & B3).
  cbn [combine map fst snd map2 length].
  split; [now f_equal|]. split; [now f_equal|]. f_equal; [|exact B3]. now apply ole_row.
Qed.
End P.
