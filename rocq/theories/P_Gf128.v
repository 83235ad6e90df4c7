(** GF(2^128): the code's block multiplication is SP 800-38D's, and the latter is a field. *)
From Coq Require Import List NArith Bool Arith Lia.
From Verif Require Import L_Bits S_Gcm M_Block.
Import ListNotations.
Local Open Scope N_scope.

(** * Additive functions *)
Definition additive (f : N -> N) := forall a b, f (N.lxor a b) = N.lxor (f a) (f b).

Lemma additive_0 f : additive f -> f 0 = 0.
Proof. intro H. specialize (H 0 0). rewrite N.lxor_0_l in H. rewrite N.lxor_nilpotent in H. exact H. Qed.
Lemma additive_id : additive (fun x => x).
Proof. intros a b. reflexivity. Qed.
Lemma additive_comp f g : additive f -> additive g -> additive (fun x => f (g x)).
Proof. intros Hf Hg a b. now rewrite Hg, Hf. Qed.
Lemma lxor4 a b c d : N.lxor (N.lxor a b) (N.lxor c d) = N.lxor (N.lxor a c) (N.lxor b d).
Proof.
  rewrite !N.lxor_assoc. f_equal. rewrite <- !N.lxor_assoc. f_equal. apply N.lxor_comm.
Qed.
Lemma additive_lxor f g : additive f -> additive g -> additive (fun x => N.lxor (f x) (g x)).
Proof. intros Hf Hg a b. rewrite Hf, Hg. apply lxor4. Qed.
Lemma additive_land m : additive (fun x => N.land x m).
Proof.
  intros a b. apply N.bits_inj. intro i. rewrite !N.lxor_spec, !N.land_spec, N.lxor_spec.
  now destruct (N.testbit a i), (N.testbit b i), (N.testbit m i).
Qed.
Lemma additive_shiftl n : additive (fun x => N.shiftl x n).
Proof. intros a b. apply N.shiftl_lxor. Qed.
Lemma additive_shiftr n : additive (fun x => N.shiftr x n).
Proof. intros a b. apply N.shiftr_lxor. Qed.
Lemma additive_if_bit k c : additive (fun x => if N.testbit x k then c else 0).
Proof.
  intros a b. rewrite N.lxor_spec. destruct (N.testbit a k), (N.testbit b k); cbn [xorb];
  now rewrite ?N.lxor_nilpotent, ?N.lxor_0_r, ?N.lxor_0_l.
Qed.
Lemma additive_const_if (c : bool) f : additive f -> additive (fun x => if c then f x else 0).
Proof. intros H a b. destruct c; [apply H|reflexivity]. Qed.

(** two additive functions that agree on 2^0..2^(n-1) agree below 2^n *)
Lemma additive_ext f g n : additive f -> additive g ->
  (forall i, (i < n)%nat -> f (N.shiftl 1 (N.of_nat i)) = g (N.shiftl 1 (N.of_nat i))) ->
  forall a, a < 2 ^ N.of_nat n -> f a = g a.
Proof.
  intros Hf Hg. induction n as [|n IH]; intros H a Ha.
  - cbn in Ha. assert (a = 0) by lia. subst. now rewrite !additive_0.
  - destruct (N.testbit a (N.of_nat n)) eqn:B.
    + set (p := N.shiftl 1 (N.of_nat n)).
      assert (E : a = N.lxor (N.lxor a p) p).
      { now rewrite N.lxor_assoc, N.lxor_nilpotent, N.lxor_0_r. }
      rewrite E, Hf, Hg. f_equal.
      * apply IH; [intros; apply H; lia|]. apply lt_pow2_testbit. intros i Hi. unfold p.
        rewrite N.lxor_spec. destruct (N.eq_dec i (N.of_nat n)) as [->|Hn].
        -- rewrite B, N.shiftl_spec_high', N.sub_diag by lia. reflexivity.
        -- rewrite (testbit_high a (N.of_nat (S n)) i Ha) by lia.
           rewrite N.shiftl_spec_high' by lia. destruct (i - N.of_nat n) eqn:X; [lia|]. reflexivity.
      * apply H. lia.
    + apply IH; [intros; apply H; lia|]. apply lt_pow2_testbit. intros i Hi.
      destruct (N.eq_dec i (N.of_nat n)) as [->|Hn]; [exact B|].
      apply (testbit_high a (N.of_nat (S n))); [exact Ha|lia].
Qed.

(** the same, with the agreement as a boolean check *)
Lemma additive_ext_b f g n : additive f -> additive g ->
  forallb (fun i => f (N.shiftl 1 (N.of_nat i)) =? g (N.shiftl 1 (N.of_nat i))) (seq 0 n) = true ->
  forall a, a < 2 ^ N.of_nat n -> f a = g a.
Proof.
  intros Hf Hg H. apply additive_ext; auto. intros i Hi. rewrite forallb_forall in H.
  apply N.eqb_eq, H, in_seq. lia.
Qed.
Lemma biadditive_ext f g n :
  (forall b, additive (fun a => f a b)) -> (forall a, additive (f a)) ->
  (forall b, additive (fun a => g a b)) -> (forall a, additive (g a)) ->
  (forall i j, (i < n)%nat -> (j < n)%nat ->
    f (N.shiftl 1 (N.of_nat i)) (N.shiftl 1 (N.of_nat j)) = g (N.shiftl 1 (N.of_nat i)) (N.shiftl 1 (N.of_nat j))) ->
  forall a b, a < 2 ^ N.of_nat n -> b < 2 ^ N.of_nat n -> f a b = g a b.
Proof.
  intros F1 F2 G1 G2 H a b Ha Hb. revert a Ha.
  apply (additive_ext (fun a => f a b) (fun a => g a b)); [apply F1|apply G1|].
  intros i Hi. revert b Hb. apply additive_ext; [apply F2|apply G2|]. intros j Hj. now apply H.
Qed.

Lemma lor_lxor a b m1 m2 : N.land m1 m2 = 0 -> N.lor (N.land a m1) (N.land b m2) = N.lxor (N.land a m1) (N.land b m2).
Proof.
  intro H. apply N.bits_inj. intro i. rewrite N.lor_spec, N.lxor_spec, !N.land_spec.
  assert (T : N.testbit (N.land m1 m2) i = false) by (rewrite H; apply N.bits_0).
  rewrite N.land_spec in T.
  destruct (N.testbit a i), (N.testbit b i), (N.testbit m1 i), (N.testbit m2 i); try reflexivity; discriminate.
Qed.

(** * The instructions *)
Definition biadditive (f : N -> N -> N) := (forall b, additive (fun a => f a b)) /\ (forall a, additive (f a)).

Lemma clmul64_add_l n b : additive (fun a => clmul64 n a b).
Proof.
  induction n as [|n IH]; cbn [clmul64]; [intros ? ?; reflexivity|].
  apply additive_lxor; [exact IH|]. apply additive_const_if, additive_shiftl.
Qed.
Lemma clmul64_add_r n a : additive (clmul64 n a).
Proof.
  induction n as [|n IH]; cbn [clmul64]; [intros ? ?; reflexivity|].
  apply (additive_lxor (fun b => clmul64 n a b)); [exact IH|]. apply additive_if_bit.
Qed.
Lemma half_add (h : bool) : additive (fun x => if h then hi64 x else lo64 x).
Proof.
  destruct h; unfold hi64, lo64.
  - apply (additive_comp (fun x => N.land x (N.ones 64)) (fun x => N.shiftr x 64)); [apply additive_land|apply additive_shiftr].
  - apply additive_land.
Qed.
Lemma clmul_bi h1 h2 : biadditive (fun a b => clmul a b h1 h2).
Proof.
  split.
  - intros b x y. unfold clmul. rewrite (half_add h1 x y). apply clmul64_add_l.
  - intros a x y. unfold clmul. rewrite (half_add h2 x y). apply clmul64_add_r.
Qed.

Lemma slli_si128_add n : additive (fun x => slli_si128 x n).
Proof. unfold slli_si128. apply (additive_comp (fun x => N.land x mask128)); [apply additive_land|apply additive_shiftl]. Qed.
Lemma srli_si128_add n : additive (fun x => srli_si128 x n).
Proof. unfold srli_si128. apply (additive_comp (fun x => N.shiftr x (8 * n)) (fun x => N.land x mask128)); [apply additive_shiftr|apply additive_land]. Qed.
Lemma slli_epi32_add n : additive (fun x => slli_epi32 x n).
Proof. unfold slli_epi32. apply (additive_comp (fun x => N.land x (rep4 (N.shiftl (N.ones (32 - n)) n)))); [apply additive_land|apply additive_shiftl]. Qed.
Lemma srli_epi32_add n : additive (fun x => srli_epi32 x n).
Proof. unfold srli_epi32. apply (additive_comp (fun x => N.land x (rep4 (N.ones (32 - n))))); [apply additive_land|apply additive_shiftr]. Qed.

(** The part of mulBlock after the carry-less products, with OR replaced by XOR: the low
    128 bits [t3] and the high 128 bits [t6] are reduced. *)
Definition red (t3 t4 t6 : N) : N :=
  let tmp5 := slli_si128 t4 8 in
  let tmp4 := srli_si128 t4 8 in
  let tmp3 := N.lxor t3 tmp5 in
  let tmp6 := N.lxor t6 tmp4 in
  let tmp7 := srli_epi32 tmp3 31 in
  let tmp8 := srli_epi32 tmp6 31 in
  let tmp3 := slli_epi32 tmp3 1 in
  let tmp6 := slli_epi32 tmp6 1 in
  let tmp9 := srli_si128 tmp7 12 in
  let tmp8 := slli_si128 tmp8 4 in
  let tmp7 := slli_si128 tmp7 4 in
  let tmp3 := N.lxor tmp3 tmp7 in
  let tmp6 := N.lxor tmp6 tmp8 in
  let tmp6 := N.lxor tmp6 tmp9 in
  let tmp7 := slli_epi32 tmp3 31 in
  let tmp8 := slli_epi32 tmp3 30 in
  let tmp9 := slli_epi32 tmp3 25 in
  let tmp7 := N.lxor tmp7 tmp8 in
  let tmp7 := N.lxor tmp7 tmp9 in
  let tmp8 := srli_si128 tmp7 4 in
  let tmp7 := slli_si128 tmp7 12 in
  let tmp3 := N.lxor tmp3 tmp7 in
  let tmp2 := srli_epi32 tmp3 1 in
  let tmp4 := srli_epi32 tmp3 2 in
  let tmp5 := srli_epi32 tmp3 7 in
  let tmp2 := N.lxor tmp2 tmp4 in
  let tmp2 := N.lxor tmp2 tmp5 in
  let tmp2 := N.lxor tmp2 tmp8 in
  let tmp3 := N.lxor tmp3 tmp2 in
  N.lxor tmp6 tmp3.

Lemma land_absorb x m m' : N.land m m' = m -> N.land x m = N.land (N.land x m) m'.
Proof. intro H. now rewrite <- N.land_assoc, H. Qed.
Lemma or1 x y : N.lor (slli_epi32 x 1) (slli_si128 (srli_epi32 y 31) 4) =
                N.lxor (slli_epi32 x 1) (slli_si128 (srli_epi32 y 31) 4).
Proof.
  assert (E : slli_si128 (srli_epi32 y 31) 4 =
              N.land (slli_si128 (srli_epi32 y 31) 4) (N.shiftl (rep4 (N.ones 1)) 32)).
  { unfold slli_si128, srli_epi32. rewrite N.shiftl_land, <- !N.land_assoc. f_equal. }
  rewrite E. unfold slli_epi32. apply lor_lxor. reflexivity.
Qed.
Lemma or2 x y z : N.lor (N.lxor (slli_epi32 x 1) (slli_si128 (srli_epi32 y 31) 4)) (srli_si128 (srli_epi32 z 31) 12) =
                  N.lxor (N.lxor (slli_epi32 x 1) (slli_si128 (srli_epi32 y 31) 4)) (srli_si128 (srli_epi32 z 31) 12).
Proof.
  assert (E1 : srli_si128 (srli_epi32 z 31) 12 = N.land (srli_si128 (srli_epi32 z 31) 12) 1).
  { unfold srli_si128, srli_epi32. rewrite !N.shiftr_land, <- !N.land_assoc. f_equal. }
  assert (E2 : N.lxor (slli_epi32 x 1) (slli_si128 (srli_epi32 y 31) 4) =
               N.land (N.lxor (slli_epi32 x 1) (slli_si128 (srli_epi32 y 31) 4)) (N.ldiff mask128 1)).
  { rewrite (additive_land (N.ldiff mask128 1)). f_equal.
    - unfold slli_epi32. rewrite <- N.land_assoc. f_equal.
    - unfold slli_si128, srli_epi32. rewrite N.shiftl_land, <- !N.land_assoc. f_equal. }
  rewrite E2, E1. apply lor_lxor. reflexivity.
Qed.

Lemma mulBlock_red a b :
  mulBlock a b = red (clmul a b false false) (N.lxor (clmul a b false true) (clmul a b true false)) (clmul a b true true).
Proof. unfold mulBlock, red. cbv zeta. now rewrite !or1, or2. Qed.

Ltac radd f := let H := fresh in pose proof f as H; unfold additive in H; rewrite !H; clear H.
Lemma red_add a3 a4 a6 b3 b4 b6 :
  red (N.lxor a3 b3) (N.lxor a4 b4) (N.lxor a6 b6) = N.lxor (red a3 a4 a6) (red b3 b4 b6).
Proof.
  unfold red. cbv zeta.
  rewrite (slli_si128_add 8 a4 b4), (srli_si128_add 8 a4 b4).
  rewrite (lxor4 a3 b3), (lxor4 a6 b6).
  generalize (N.lxor a3 (slli_si128 a4 8)) (N.lxor b3 (slli_si128 b4 8)).
  generalize (N.lxor a6 (srli_si128 a4 8)) (N.lxor b6 (srli_si128 b4 8)).
  clear. intros u v x y.
  rewrite (srli_epi32_add 31 x y), (srli_epi32_add 31 u v), (slli_epi32_add 1 x y), (slli_epi32_add 1 u v).
  generalize (srli_epi32 x 31) (srli_epi32 y 31) (srli_epi32 u 31) (srli_epi32 v 31)
    (slli_epi32 x 1) (slli_epi32 y 1) (slli_epi32 u 1) (slli_epi32 v 1). clear.
  intros x7 y7 u8 v8 x3 y3 u6 v6.
  rewrite (slli_si128_add 4 x7 y7), (slli_si128_add 4 u8 v8), (srli_si128_add 12 x7 y7).
  rewrite (lxor4 x3 y3), (lxor4 u6 v6), (lxor4 (N.lxor u6 _)).
  generalize (N.lxor (N.lxor u6 (slli_si128 u8 4)) (srli_si128 x7 12)) (N.lxor (N.lxor v6 (slli_si128 v8 4)) (srli_si128 y7 12)).
  generalize (N.lxor x3 (slli_si128 x7 4)) (N.lxor y3 (slli_si128 y7 4)). clear.
  intros x y u v.
  rewrite (slli_epi32_add 31 x y), (slli_epi32_add 30 x y), (slli_epi32_add 25 x y).
  rewrite (lxor4 (slli_epi32 x 31)), (lxor4 (N.lxor (slli_epi32 x 31) _)).
  generalize (N.lxor (N.lxor (slli_epi32 x 31) (slli_epi32 x 30)) (slli_epi32 x 25)).
  generalize (N.lxor (N.lxor (slli_epi32 y 31) (slli_epi32 y 30)) (slli_epi32 y 25)).
  intros y7 x7.
  rewrite (slli_si128_add 12 x7 y7), (srli_si128_add 4 x7 y7), (lxor4 x y).
  generalize (N.lxor x (slli_si128 x7 12)) (N.lxor y (slli_si128 y7 12)). clear x y. intros x y.
  rewrite (srli_epi32_add 1 x y), (srli_epi32_add 2 x y), (srli_epi32_add 7 x y).
  rewrite (lxor4 (srli_epi32 x 1)), (lxor4 (N.lxor (srli_epi32 x 1) _)), (lxor4 (N.lxor (N.lxor (srli_epi32 x 1) _) _)).
  rewrite (lxor4 x y), (lxor4 u v). reflexivity.
Qed.

Lemma mulBlock_bi : biadditive mulBlock.
Proof.
  split.
  - intros b x y. rewrite !mulBlock_red.
    rewrite (proj1 (clmul_bi false false) b x y), (proj1 (clmul_bi false true) b x y),
      (proj1 (clmul_bi true false) b x y), (proj1 (clmul_bi true true) b x y).
    rewrite (lxor4 (clmul x b false true)). apply red_add.
  - intros a x y. rewrite !mulBlock_red.
    rewrite (proj2 (clmul_bi false false) a x y), (proj2 (clmul_bi false true) a x y),
      (proj2 (clmul_bi true false) a x y), (proj2 (clmul_bi true true) a x y).
    rewrite (lxor4 (clmul a x false true)). apply red_add.
Qed.

(** * The specification *)
Definition shiftn (n : nat) (v : N) : N := Nat.iter n gf_shift v.
Lemma gf_shift_add : additive gf_shift.
Proof.
  assert (E : forall v, gf_shift v = N.lxor (N.shiftr v 1) (if N.testbit v 0 then gcm_R else 0)).
  { intro v. unfold gf_shift. rewrite N.bit0_odd, <- N.div2_spec. destruct (N.odd v); [reflexivity|].
    symmetry. apply N.lxor_0_r. }
  intros a b. rewrite !E. exact (additive_lxor (fun v => N.shiftr v 1) (fun v => if N.testbit v 0 then gcm_R else 0)
    (additive_shiftr 1) (additive_if_bit 0 gcm_R) a b).
Qed.
(** sum over the bits of x of shifted copies of v *)
Fixpoint gsum (n : nat) (x v : N) : N :=
  match n with
  | O => 0
  | S k => N.lxor (if N.testbit x (N.of_nat k) then v else 0) (gsum k x (gf_shift v))
  end.
Lemma gf_mul_from_sum n : forall x v z, gf_mul_from n x v z = N.lxor z (gsum n x v).
Proof.
  induction n as [|n IH]; intros x v z; cbn [gf_mul_from gsum]; [now rewrite N.lxor_0_r|].
  rewrite IH. destruct (N.testbit x (N.of_nat n)).
  - now rewrite N.lxor_assoc.
  - now rewrite N.lxor_0_l.
Qed.
Lemma gf_mul_sum x y : gf_mul x y = gsum 128 x y.
Proof. unfold gf_mul. rewrite gf_mul_from_sum. apply N.lxor_0_l. Qed.
Lemma gsum_add_l n : forall v, additive (fun x => gsum n x v).
Proof.
  induction n as [|n IH]; intros v; cbn [gsum]; [intros ? ?; reflexivity|].
  apply (additive_lxor (fun x => if N.testbit x (N.of_nat n) then v else 0)); [apply additive_if_bit|apply IH].
Qed.
Lemma gsum_add_r n : forall x, additive (gsum n x).
Proof.
  induction n as [|n IH]; intros x; cbn [gsum]; [intros ? ?; reflexivity|].
  apply (additive_lxor (fun v => if N.testbit x (N.of_nat n) then v else 0)).
  - intros a b. destruct (N.testbit x (N.of_nat n)); reflexivity.
  - intros a b. rewrite gf_shift_add. apply IH.
Qed.
Lemma gf_mul_bi : biadditive gf_mul.
Proof.
  split.
  - intros b x y. rewrite !gf_mul_sum. apply gsum_add_l.
  - intros a x y. rewrite !gf_mul_sum. apply gsum_add_r.
Qed.

(** * mulBlock is gf_mul: on basis elements 2^i, 2^j both depend on i + j only, which is
    checked for the 255 sums and extended by additivity *)
Definition redc (lo hi : N) : N := red lo 0 hi.
Lemma red_redc t3 t4 t6 : red t3 t4 t6 = redc (N.lxor t3 (slli_si128 t4 8)) (N.lxor t6 (srli_si128 t4 8)).
Proof.
  unfold redc, red. cbv zeta. 
  assert (Z1 : slli_si128 0 8 = 0) by reflexivity. assert (Z2 : srli_si128 0 8 = 0) by reflexivity.
  now rewrite Z1, Z2, !N.lxor_0_r.
Qed.
Lemma bit_pow j k : N.testbit (N.shiftl 1 j) k = (j =? k).
Proof.
  rewrite N.shiftl_1_l. destruct (N.eqb_spec j k) as [->|H]; [apply N.pow2_bits_true|now apply N.pow2_bits_false].
Qed.
Lemma clmul64_0 n b : clmul64 n 0 b = 0.
Proof. induction n as [|n IH]; cbn [clmul64]; [reflexivity|]. rewrite IH. now destruct (N.testbit b (N.of_nat n)); rewrite ?N.shiftl_0_l. Qed.
Lemma clmul64_0_r n a : clmul64 n a 0 = 0.
Proof. induction n as [|n IH]; cbn [clmul64]; [reflexivity|]. now rewrite IH, N.bits_0. Qed.
Lemma clmul64_pow n a j : clmul64 n a (N.shiftl 1 (N.of_nat j)) = if (j <? n)%nat then N.shiftl a (N.of_nat j) else 0.
Proof.
  induction n as [|n IH]; cbn [clmul64]; [reflexivity|]. rewrite IH, bit_pow.
  destruct (N.eqb_spec (N.of_nat j) (N.of_nat n)) as [E|E].
  - apply Nat2N.inj in E. subst j. rewrite Nat.ltb_irrefl. destruct (Nat.ltb_spec n (S n)); [|lia]. reflexivity.
  - rewrite N.lxor_0_r. destruct (Nat.ltb_spec j n), (Nat.ltb_spec j (S n)); try reflexivity; lia.
Qed.
Lemma lo_pow i : lo64 (N.shiftl 1 (N.of_nat i)) = if (i <? 64)%nat then N.shiftl 1 (N.of_nat i) else 0.
Proof.
  apply N.bits_inj. intro k. unfold lo64. rewrite N.land_spec, bit_pow.
  destruct (Nat.ltb_spec i 64) as [L|G]; rewrite ?bit_pow, ?N.bits_0;
    (destruct (N.eqb_spec (N.of_nat i) k) as [<-|]; [|reflexivity]).
  - apply N.ones_spec_low. lia.
  - apply N.ones_spec_high. lia.
Qed.
Lemma hi_pow i : (i < 128)%nat -> hi64 (N.shiftl 1 (N.of_nat i)) = if (i <? 64)%nat then 0 else N.shiftl 1 (N.of_nat (i - 64)).
Proof.
  intro Hi. apply N.bits_inj. intro k. unfold hi64. rewrite N.land_spec, N.shiftr_spec', bit_pow.
  destruct (Nat.ltb_spec i 64) as [L|G]; rewrite ?bit_pow, ?N.bits_0.
  - destruct (N.eqb_spec (N.of_nat i) (k + 64)); [lia|reflexivity].
  - destruct (N.eqb_spec (N.of_nat i) (k + 64)), (N.eqb_spec (N.of_nat (i - 64)) k); try lia; try reflexivity.
    rewrite N.ones_spec_low by lia. reflexivity.
Qed.
Lemma slli8_pow k : (k < 64)%nat -> slli_si128 (N.shiftl 1 (N.of_nat k)) 8 = N.shiftl 1 (N.of_nat (k + 64)).
Proof.
  intro H. unfold slli_si128. rewrite N.shiftl_shiftl. apply N.bits_inj. intro i. unfold mask128.
  rewrite N.land_spec, !bit_pow. replace (N.of_nat (k + 64)) with (N.of_nat k + 8 * 8) by lia.
  destruct (N.eqb_spec (N.of_nat k + 8 * 8) i) as [<-|]; [|reflexivity]. apply N.ones_spec_low. lia.
Qed.
Lemma slli8_pow_hi k : (64 <= k)%nat -> slli_si128 (N.shiftl 1 (N.of_nat k)) 8 = 0.
Proof.
  intro H. unfold slli_si128. rewrite N.shiftl_shiftl. apply N.bits_inj. intro i. unfold mask128.
  rewrite N.land_spec, !bit_pow, N.bits_0.
  destruct (N.eqb_spec (N.of_nat k + 8 * 8) i) as [<-|]; [|reflexivity]. apply N.ones_spec_high. lia.
Qed.
Lemma srli8_pow k : (k < 128)%nat -> srli_si128 (N.shiftl 1 (N.of_nat k)) 8 = if (k <? 64)%nat then 0 else N.shiftl 1 (N.of_nat (k - 64)).
Proof.
  intro H. unfold srli_si128. apply N.bits_inj. intro i. unfold mask128.
  rewrite N.shiftr_spec', N.land_spec, bit_pow.
  destruct (Nat.ltb_spec k 64) as [L|G]; rewrite ?bit_pow, ?N.bits_0.
  - destruct (N.eqb_spec (N.of_nat k) (i + 8 * 8)); [lia|reflexivity].
  - destruct (N.eqb_spec (N.of_nat k) (i + 8 * 8)), (N.eqb_spec (N.of_nat (k - 64)) i); try lia; try reflexivity.
    rewrite N.ones_spec_low by lia. reflexivity.
Qed.
(** the two halves of 2^s *)
Definition plo (s : nat) : N := if (s <? 128)%nat then N.shiftl 1 (N.of_nat s) else 0.
Definition phi (s : nat) : N := if (s <? 128)%nat then 0 else N.shiftl 1 (N.of_nat (s - 128)).
Lemma mulBlock_basis i j : (i < 128)%nat -> (j < 128)%nat ->
  mulBlock (N.shiftl 1 (N.of_nat i)) (N.shiftl 1 (N.of_nat j)) = redc (plo (i + j)) (phi (i + j)).
Proof.
  intros Hi Hj. rewrite mulBlock_red, red_redc. unfold clmul. rewrite !lo_pow, !hi_pow by assumption.
  unfold plo, phi.
  destruct (Nat.ltb_spec i 64), (Nat.ltb_spec j 64);
    rewrite ?clmul64_0, ?clmul64_0_r, ?clmul64_pow, ?N.lxor_0_l, ?N.lxor_0_r, ?N.shiftl_shiftl;
    try (destruct (Nat.ltb_spec j 64); [|lia]); try (destruct (Nat.ltb_spec (j - 64) 64); [|lia]);
    rewrite ?N.shiftl_shiftl, <- ?Nat2N.inj_add, ?N.lxor_0_l, ?N.lxor_0_r.
  - destruct (Nat.ltb_spec (i + j) 128); [|lia].
    change (slli_si128 0 8) with 0. change (srli_si128 0 8) with 0. now rewrite ?N.lxor_0_r.
  - rewrite srli8_pow by lia.
    destruct (Nat.ltb_spec (i + (j - 64)) 64), (Nat.ltb_spec (i + j) 128); try lia.
    + rewrite slli8_pow by lia. do 3 f_equal. lia.
    + rewrite slli8_pow_hi by lia. do 3 f_equal. lia.
  - rewrite srli8_pow by lia.
    destruct (Nat.ltb_spec (i - 64 + j) 64), (Nat.ltb_spec (i + j) 128); try lia.
    + rewrite slli8_pow by lia. do 3 f_equal. lia.
    + rewrite slli8_pow_hi by lia. do 3 f_equal. lia.
  - destruct (Nat.ltb_spec (i + j) 128); [lia|].
    change (slli_si128 0 8) with 0. change (srli_si128 0 8) with 0. rewrite ?N.lxor_0_r. do 3 f_equal. lia.
Qed.

Lemma shiftn_add n m v : shiftn (n + m) v = shiftn n (shiftn m v).
Proof. induction n as [|n IH]; [reflexivity|]. exact (f_equal gf_shift IH). Qed.
Lemma gsum_pow n i : forall v, gsum n (N.shiftl 1 (N.of_nat i)) v = if (i <? n)%nat then shiftn (n - 1 - i) v else 0.
Proof.
  induction n as [|n IH]; intro v; cbn [gsum]; [reflexivity|]. rewrite bit_pow, IH.
  destruct (N.eqb_spec (N.of_nat i) (N.of_nat n)) as [E|E].
  - apply Nat2N.inj in E. subst i. rewrite Nat.ltb_irrefl. destruct (Nat.ltb_spec n (S n)); [|lia].
    replace (S n - 1 - n)%nat with 0%nat by lia. apply N.lxor_0_r.
  - rewrite N.lxor_0_l. destruct (Nat.ltb_spec i n), (Nat.ltb_spec i (S n)); try reflexivity; try lia.
    replace (S n - 1 - i)%nat with ((n - 1 - i) + 1)%nat by lia. rewrite shiftn_add. reflexivity.
Qed.
Lemma shiftn_pow m : forall j, (m <= j)%nat -> shiftn m (N.shiftl 1 (N.of_nat j)) = N.shiftl 1 (N.of_nat (j - m)).
Proof.
  induction m as [|m IH]; intros j H; [now rewrite Nat.sub_0_r|].
  change (shiftn (S m) (N.shiftl 1 (N.of_nat j))) with (gf_shift (shiftn m (N.shiftl 1 (N.of_nat j)))).
  rewrite IH by lia. unfold gf_shift. rewrite <- N.bit0_odd, bit_pow.
  destruct (N.eqb_spec (N.of_nat (j - m)) 0); [lia|]. rewrite N.div2_spec.
  apply N.bits_inj. intro i. rewrite N.shiftr_spec', !bit_pow.
  destruct (N.eqb_spec (N.of_nat (j - m)) (i + 1)), (N.eqb_spec (N.of_nat (j - S m)) i); try reflexivity; lia.
Qed.
Definition gpow (s : nat) : N := if (s <? 127)%nat then shiftn (127 - s) 1 else N.shiftl 1 (N.of_nat (s - 127)).
Lemma gf_mul_basis i j : (i < 128)%nat -> (j < 128)%nat ->
  gf_mul (N.shiftl 1 (N.of_nat i)) (N.shiftl 1 (N.of_nat j)) = gpow (i + j).
Proof.
  intros Hi Hj. rewrite gf_mul_sum, gsum_pow. destruct (Nat.ltb_spec i 128); [|lia]. unfold gpow.
  replace (128 - 1 - i)%nat with (127 - i)%nat by lia.
  destruct (Nat.ltb_spec (i + j) 127).
  - replace (127 - i)%nat with ((127 - (i + j)) + j)%nat by lia. rewrite shiftn_add, shiftn_pow by lia.
    now rewrite Nat.sub_diag.
  - rewrite shiftn_pow by lia. do 2 f_equal. lia.
Qed.
Definition basis_check : bool := forallb (fun s => redc (plo s) (phi s) =? gpow s) (seq 0 255).
Lemma basis_check_true : basis_check = true.
Proof. vm_compute. reflexivity. Qed.
Lemma basis_ok i j : (i < 128)%nat -> (j < 128)%nat ->
  mulBlock (N.shiftl 1 (N.of_nat i)) (N.shiftl 1 (N.of_nat j)) = gf_mul (N.shiftl 1 (N.of_nat i)) (N.shiftl 1 (N.of_nat j)).
Proof.
  intros Hi Hj. rewrite mulBlock_basis, gf_mul_basis by assumption.
  pose proof basis_check_true as H. unfold basis_check in H. rewrite forallb_forall in H.
  apply N.eqb_eq. apply (H (i + j)%nat). apply in_seq. lia.
Qed.

Definition blk (x : N) := x < 2 ^ 128.

Local Opaque mulBlock gf_mul.
Theorem mulBlock_gf a b : blk a -> blk b -> mulBlock a b = gf_mul a b.
Proof.
  exact (biadditive_ext mulBlock gf_mul 128 (proj1 mulBlock_bi) (proj2 mulBlock_bi)
    (proj1 gf_mul_bi) (proj2 gf_mul_bi) basis_ok a b).
Qed.

(** * Field laws of the specification *)
Lemma gf_shift_blk v : blk v -> blk (gf_shift v).
Proof.
  unfold gf_shift, blk. intro H. assert (D : N.div2 v < 2 ^ 128) by (rewrite N.div2_div; apply N.div_lt_upper_bound; lia).
  destruct (N.odd v); [|exact D]. apply lxor_lt; [exact D|reflexivity].
Qed.
Lemma gsum_blk n : forall x v, blk v -> blk (gsum n x v).
Proof.
  induction n as [|n IH]; intros x v H; cbn [gsum]; [reflexivity|].
  apply lxor_lt; [|apply IH, gf_shift_blk, H]. destruct (N.testbit _ _); [exact H|reflexivity].
Qed.
Lemma gf_mul_blk x y : blk y -> blk (gf_mul x y).
Proof. intro H. rewrite gf_mul_sum. now apply gsum_blk. Qed.
Lemma lxor_blk a b : blk a -> blk b -> blk (N.lxor a b).
Proof. apply lxor_lt. Qed.

Lemma gsum_shift n : forall x v, gsum n x (gf_shift v) = gf_shift (gsum n x v).
Proof.
  induction n as [|n IH]; intros x v; cbn [gsum]; [symmetry; apply (additive_0 _ gf_shift_add)|].
  rewrite gf_shift_add, IH. f_equal. destruct (N.testbit _ _); [reflexivity|].
  symmetry. apply (additive_0 _ gf_shift_add).
Qed.
Lemma gsum_swap n m : forall x y v, gsum n x (gsum m y v) = gsum m y (gsum n x v).
Proof.
  induction n as [|n IH]; intros x y v; cbn [gsum]; [symmetry; apply (additive_0 _ (gsum_add_r m y))|].
  rewrite (gsum_add_r m y). rewrite <- gsum_shift, IH. f_equal.
  destruct (N.testbit _ _); [reflexivity|]. symmetry. apply (additive_0 _ (gsum_add_r m y)).
Qed.
Lemma gf_mul_swap x y z : gf_mul x (gf_mul y z) = gf_mul y (gf_mul x z).
Proof. rewrite !gf_mul_sum. apply gsum_swap. Qed.

Lemma gf_mul_1_r x : blk x -> gf_mul x gf_one = x.
Proof.
  revert x. apply (additive_ext_b (fun x => gf_mul x gf_one) (fun x => x) 128 (proj1 gf_mul_bi gf_one) additive_id).
  vm_compute. reflexivity.
Qed.
Lemma gf_one_blk : blk gf_one.
Proof. reflexivity. Qed.
Lemma gf_mul_comm x y : blk x -> blk y -> gf_mul x y = gf_mul y x.
Proof.
  intros Hx Hy. rewrite <- (gf_mul_1_r y Hy) at 1. rewrite gf_mul_swap. now rewrite (gf_mul_1_r x Hx).
Qed.
Lemma gf_mul_assoc x y z : blk x -> blk y -> blk z -> gf_mul x (gf_mul y z) = gf_mul (gf_mul x y) z.
Proof.
  intros Hx Hy Hz. rewrite (gf_mul_comm y z), gf_mul_swap by auto.
  apply gf_mul_comm; auto using gf_mul_blk.
Qed.
Lemma gf_mul_1_l x : blk x -> gf_mul gf_one x = x.
Proof. intro H. rewrite gf_mul_comm by (auto using gf_one_blk). now apply gf_mul_1_r. Qed.
Lemma gf_mul_0_r x : gf_mul x 0 = 0.
Proof. apply (additive_0 _ (proj2 gf_mul_bi x)). Qed.
Lemma gf_mul_0_l x : gf_mul 0 x = 0.
Proof. apply (additive_0 _ (proj1 gf_mul_bi x)). Qed.
Lemma gf_mul_add_r x a b : gf_mul x (N.lxor a b) = N.lxor (gf_mul x a) (gf_mul x b).
Proof. apply (proj2 gf_mul_bi). Qed.
Lemma gf_mul_add_l x a b : gf_mul (N.lxor a b) x = N.lxor (gf_mul a x) (gf_mul b x).
Proof. apply (proj1 gf_mul_bi x). Qed.

(** squaring is additive and its 128th iterate is the identity *)
Definition sq (x : N) : N := gf_mul x x.
Lemma sq_blk x : blk x -> blk (sq x).
Proof. apply gf_mul_blk. Qed.
Lemma sq_add a b : blk a -> blk b -> sq (N.lxor a b) = N.lxor (sq a) (sq b).
Proof.
  intros Ha Hb. unfold sq. rewrite gf_mul_add_l, !gf_mul_add_r, (gf_mul_comm b a) by auto.
  rewrite N.lxor_assoc. f_equal. rewrite <- N.lxor_assoc, N.lxor_nilpotent. apply N.lxor_0_l.
Qed.
(** a table form of squaring that is additive everywhere *)
Definition lin (tab : list N) (x : N) : N :=
  fold_right (fun p acc => N.lxor (if N.testbit x (N.of_nat (fst p)) then snd p else 0) acc) 0
    (combine (seq 0 128) tab).
Lemma lin_add tab : additive (lin tab).
Proof.
  unfold lin. induction (combine (seq 0 128) tab) as [|[k c] l IH]; cbn [fold_right fst snd]; [intros ? ?; reflexivity|].
  apply (additive_lxor (fun x => if N.testbit x (N.of_nat k) then c else 0)); [apply additive_if_bit|exact IH].
Qed.
Definition sq_tab : list N := Eval vm_compute in map (fun i => sq (N.shiftl 1 (N.of_nat i))) (seq 0 128).
Lemma sq_lin x : blk x -> sq x = lin sq_tab x.
Proof.
  (* sq is only additive on blocks: mask first *)
  intro H.
  assert (M : forall y, blk (N.land y (N.ones 128))).
  { intro y. unfold blk. rewrite N.land_ones. apply N.mod_lt. discriminate. }
  assert (A : additive (fun y => sq (N.land y (N.ones 128)))).
  { intros a b. rewrite (additive_land (N.ones 128) a b). now apply sq_add. }
  assert (E : N.land x (N.ones 128) = x) by (rewrite N.land_ones; now apply N.mod_small).
  rewrite <- E at 1. revert x H E.
  assert (G : forall x, blk x -> sq (N.land x (N.ones 128)) = lin sq_tab x).
  { apply (additive_ext_b (fun y => sq (N.land y (N.ones 128))) (lin sq_tab) 128 A (lin_add sq_tab)).
    vm_compute. reflexivity. }
  intros x H _. now apply G.
Qed.
Definition sqn (n : nat) (x : N) : N := Nat.iter n sq x.
Lemma sqn_blk n x : blk x -> blk (sqn n x).
Proof. intro H. induction n; cbn; auto using sq_blk. Qed.
Lemma additive_fold f l x : additive f ->
  f (fold_right (fun p acc => N.lxor (if N.testbit x (N.of_nat (fst p)) then snd p else 0) acc) 0 l) =
  fold_right (fun p acc => N.lxor (if N.testbit x (N.of_nat (fst p)) then snd p else 0) acc) 0
    (map (fun p => (fst p, f (snd p))) l).
Proof.
  intro A. induction l as [|[k c] l IH]; cbn [fold_right map fst snd]; [now apply additive_0|].
  rewrite A, IH. f_equal. destruct (N.testbit _ _); [reflexivity|now apply additive_0].
Qed.
Lemma combine_map_r (f : N -> N) : forall (a : list nat) t, map (fun p => (fst p, f (snd p))) (combine a t) = combine a (map f t).
Proof. induction a as [|x a IH]; intros [|y t]; cbn [combine map fst snd]; [reflexivity..|]. now rewrite IH. Qed.
Lemma lin_comp t1 t2 x : lin t1 (lin t2 x) = lin (map (lin t1) t2) x.
Proof. unfold lin at 2 3. rewrite (additive_fold (lin t1)) by apply lin_add. now rewrite combine_map_r. Qed.
(** [t] tabulates the n-th iterate of squaring *)
Definition tab_of (n : nat) (t : list N) := forall x, blk x -> sqn n x = lin t x.
Lemma sqn_add n m x : sqn (n + m) x = sqn n (sqn m x).
Proof. induction n as [|n IH]; [reflexivity|]. exact (f_equal sq IH). Qed.
Lemma tab_double n m t t' : tab_of n t -> map (lin t) t = t' -> (n + n)%nat = m -> tab_of m t'.
Proof. intros H <- <- x Hx. rewrite sqn_add, (H (sqn n x)), (H x) by auto using sqn_blk. apply lin_comp. Qed.
Definition tab2 : list N := Eval vm_compute in map (lin sq_tab) sq_tab.
Definition tab4 : list N := Eval vm_compute in map (lin tab2) tab2.
Definition tab8 : list N := Eval vm_compute in map (lin tab4) tab4.
Definition tab16 : list N := Eval vm_compute in map (lin tab8) tab8.
Definition tab32 : list N := Eval vm_compute in map (lin tab16) tab16.
Definition tab64 : list N := Eval vm_compute in map (lin tab32) tab32.
Definition tab128 : list N := Eval vm_compute in map (lin tab64) tab64.
Lemma e2 : map (lin sq_tab) sq_tab = tab2. Proof. vm_compute. reflexivity. Qed.
Lemma e4 : map (lin tab2) tab2 = tab4. Proof. vm_compute. reflexivity. Qed.
Lemma e8 : map (lin tab4) tab4 = tab8. Proof. vm_compute. reflexivity. Qed.
Lemma e16 : map (lin tab8) tab8 = tab16. Proof. vm_compute. reflexivity. Qed.
Lemma e32 : map (lin tab16) tab16 = tab32. Proof. vm_compute. reflexivity. Qed.
Lemma e64 : map (lin tab32) tab32 = tab64. Proof. vm_compute. reflexivity. Qed.
Lemma e128 : map (lin tab64) tab64 = tab128. Proof. vm_compute. reflexivity. Qed.
Lemma e_id : forallb (fun i => lin tab128 (N.shiftl 1 (N.of_nat i)) =? N.shiftl 1 (N.of_nat i)) (seq 0 128) = true.
Proof. vm_compute. reflexivity. Qed.
Lemma frob_128 x : blk x -> sqn 128 x = x.
Proof.
  intro H.
  assert (T1 : tab_of 1 sq_tab) by (intros y Hy; apply sq_lin, Hy).
  pose proof (tab_double 1 2 _ _ T1 e2 eq_refl) as T2. pose proof (tab_double 2 4 _ _ T2 e4 eq_refl) as T4.
  pose proof (tab_double 4 8 _ _ T4 e8 eq_refl) as T8. pose proof (tab_double 8 16 _ _ T8 e16 eq_refl) as T16.
  pose proof (tab_double 16 32 _ _ T16 e32 eq_refl) as T32. pose proof (tab_double 32 64 _ _ T32 e64 eq_refl) as T64.
  pose proof (tab_double 64 128 _ _ T64 e128 eq_refl) as T.
  rewrite (T x H). revert x H.
  exact (additive_ext_b (lin tab128) (fun x => x) 128 (lin_add tab128) additive_id e_id).
Qed.

(** certificate that the only solutions of x^2 = x are 0 and 1: a left inverse of
    x |-> x^2 + x modulo the line through 1 *)
Definition frob_tab : list N :=
  [0x0;
   0x4a2ade42a1db558927495c4d4e62fc1;
   0x35bd0e43ef6cf78dcef750ee63bd3171;
   0x41d77801d619af2a38dab35b297373a6;
   0x36dc3b3404788e15d4cfd6f8f5447461;
   0x7adc3b3404788e15d4cfd6f8f5447467;
   0x5f67891c31b7edb03c86875f90384d1c;
   0x646cca29e3d6cc8fd093e2fc4c0f4ad5;
   0x51eae8be2fe60df61bf9191de1788d94;
   0x36e717e02724b8e1d1527df73b8e8241;
   0x5f86cdbc744e28fe3430f49ddf071154;
   0x2561da5c536a901fe562896ae4899333;
   0x99a6e1cca2f8641a0b0910804c90841;
   0x2cfbb4409945165e45d21862e0409b32;
   0xd94d9da18080030c4db699e5dc0;
   0x197d9b438cafcf2f8e88275824a90133;
   0x645919a4b35879f7d7a68d71cb5770d5;
   0x7348a7e5645f93d076e747a9d181ec26;
   0x602105ae977251e64834e0c2dd2d5a94;
   0x2c14dbb71e26fc964f314b9433eb3eb2;
   0x44eaa59bd8819a999287fa5ed58ad81;
   0x77dcb1c60e3ad5c9e2190477682adba7;
   0x701c741cbd9fc8b06b94eadf79b8c426;
   0x46f806225397f491bb49eab33e4cf467;
   0x79b07befedd921e9cd751ec18ebeebe7;
   0x56f3167fe31302df9eb885b869165d55;
   0x6462e2cc93c28627d2d0526e0d66c2d5;
   0x1a24eaaa541c8b0f9092b01169688933;
   0x4bf6a9a1f02e1f698fec4b1a74166be7;
   0x21ce3a83c07744de74dad50f0d583b32;
   0x634efa836deeebf650dae654442b4894;
   0x224d20acccef41ee67fd0ac2e3641972;
   0x4bf8b9d33b8f38198de17cdee54751e7;
   0x698e6217d7fa8627ef6aa903c013fa95;
   0x457534e82f16f649aa2d862c91005ba7;
   0x144558bb6c9dfcd7bc4c239cf48626f3;
   0x3cfddc25f2ae2df86391fd8d3387a7c0;
   0x2bd77bb364af6b3fc733d8875e039333;
   0x26d44eb77ddd535ff0b1c738de72bb33;
   0x6aef57603cdbfceff55228f556d54755;
   0x285aabc679b16ad7d6c2852abfdb1eb3;
   0x38e6217d7f479d8109554569546afc0;
   0x79880aa666d696d9c926622882fff1e7;
   0x312705524db61730583bcf844c342240;
   0x5c33b52f8947e9462158188b7248d294;
   0x3bdc8ad604b36599e246fae899f68fc1;
   0x72ccff3fd3d186182e1ce9a41041041;
   0x5252e8c1d3a8e3be0d2c5beb59e57554;
   0x489a0b11781e0c1196cc4fdebc394c27;
   0x1af0929920b9589f9fb368dce89d2373;
   0x2f76850d57908a5e54a716d46cf0bb32;
   0x3f46b4c41d7d395874f4e33b9d331780;
   0x7986f6afcfc951e9cb9188c1a5beebe7;
   0x258e6f54bc4bf6f7ef54f70e70ef2ef3;
   0x55aabdbeec28a2078079924a4cd2f295;
   0x229a33517c61d3ee69739a8be16c1972;
   0x49a065cd7758d5196f0e3578d383201;
   0x428019a10caacb8824c8241264b2fba6;
   0x4622ba58b211bb21b69fb337b1785627;
   0x5cea6fd5b105659e2d1ccaeb5d2c7d54;
   0x36e9eb0be64d6b99d3ec2e5e502bb781;
   0x5ce7c3e3d68e47f62e5390ab45fe70d4;
   0x329f337db88e12004e8e904902080000;
   0x48afd66e759a994991d0e977a9aa5ba7;
   0x4a2ade42a1db559927495c4d4e62fc1;
   0x41d77801d619af2838dab35b297373a6;
   0x7adc3b3404788e11d4cfd6f8f5447467;
   0x646cca29e3d6cc87d093e2fc4c0f4ad5;
   0x36e717e02724b8f1d1527df73b8e8241;
   0x2561da5c536a903fe562896ae4899333;
   0x2cfbb4409945161e45d21862e0409b32;
   0x197d9b438cafcfaf8e88275824a90133;
   0x7348a7e5645f92d076e747a9d181ec26;
   0x2c14dbb71e26fe964f314b9433eb3eb2;
   0x77dcb1c60e3ad1c9e2190477682adba7;
   0x46f806225397fc91bb49eab33e4cf467;
   0x56f3167fe31312df9eb885b869165d55;
   0x1a24eaaa541cab0f9092b01169688933;
   0x21ce3a83c07704de74dad50f0d583b32;
   0x224d20acccefc1ee67fd0ac2e3641972;
   0x698e6217d7fb8627ef6aa903c013fa95;
   0x144558bb6c9ffcd7bc4c239cf48626f3;
   0x2bd77bb364ab6b3fc733d8875e039333;
   0x6aef57603cd3fceff55228f556d54755;
   0x38e6217d7e479d8109554569546afc0;
   0x312705524d961730583bcf844c342240;
   0x3bdc8ad604f36599e246fae899f68fc1;
   0x5252e8c1d328e3be0d2c5beb59e57554;
   0x1af0929921b9589f9fb368dce89d2373;
   0x3f46b4c41f7d395874f4e33b9d331780;
   0x258e6f54b84bf6f7ef54f70e70ef2ef3;
   0x229a33517461d3ee69739a8be16c1972;
   0x428019a11caacb8824c8241264b2fba6;
   0x5cea6fd59105659e2d1ccaeb5d2c7d54;
   0x5ce7c3e3968e47f62e5390ab45fe70d4;
   0x48afd66ef59a994991d0e977a9aa5ba7;
   0x41d77800d619af2838dab35b297373a6;
   0x646cca2be3d6cc87d093e2fc4c0f4ad5;
   0x2561da58536a903fe562896ae4899333;
   0x197d9b4b8cafcfaf8e88275824a90133;
   0x2c14dba71e26fe964f314b9433eb3eb2;
   0x46f806025397fc91bb49eab33e4cf467;
   0x1a24eaea541cab0f9092b01169688933;
   0x224d202cccefc1ee67fd0ac2e3641972;
   0x144559bb6c9ffcd7bc4c239cf48626f3;
   0x6aef55603cd3fceff55228f556d54755;
   0x312701524d961730583bcf844c342240;
   0x5252e0c1d328e3be0d2c5beb59e57554;
   0x3f46a4c41f7d395874f4e33b9d331780;
   0x229a13517461d3ee69739a8be16c1972;
   0x5cea2fd59105659e2d1ccaeb5d2c7d54;
   0x48af566ef59a994991d0e977a9aa5ba7;
   0x646dca2be3d6cc87d093e2fc4c0f4ad5;
   0x197f9b4b8cafcfaf8e88275824a90133;
   0x46fc06025397fc91bb49eab33e4cf467;
   0x2245202cccefc1ee67fd0ac2e3641972;
   0x6aff55603cd3fceff55228f556d54755;
   0x5272e0c1d328e3be0d2c5beb59e57554;
   0x22da13517461d3ee69739a8be16c1972;
   0x482f566ef59a994991d0e977a9aa5ba7;
   0x187f9b4b8cafcfaf8e88275824a90133;
   0x2045202cccefc1ee67fd0ac2e3641972;
   0x5672e0c1d328e3be0d2c5beb59e57554;
   0x402f566ef59a994991d0e977a9aa5ba7;
   0x3045202cccefc1ee67fd0ac2e3641972;
   0x602f566ef59a994991d0e977a9aa5ba7;
   0x202f566ef59a994991d0e977a9aa5ba7;
   0x10d04d25f93556e69f58ce2f8d035a94].
Local Opaque frob_tab sq_tab.
Lemma idempotent x : blk x -> sq x = x -> x = 0 \/ x = gf_one.
Proof.
  intros H E.
  assert (G : forall y, blk y -> lin frob_tab (N.lxor (lin sq_tab y) y) = N.lxor y (if N.testbit y 127 then gf_one else 0)).
  { apply (additive_ext_b (fun y => lin frob_tab (N.lxor (lin sq_tab y) y)) (fun y => N.lxor y (if N.testbit y 127 then gf_one else 0)) 128).
    - apply (additive_comp (lin frob_tab) (fun y => N.lxor (lin sq_tab y) y)); [apply lin_add|].
      apply additive_lxor; [apply lin_add|apply additive_id].
    - apply additive_lxor; [apply additive_id|apply additive_if_bit].
    - vm_compute. reflexivity. }
  specialize (G x H). rewrite <- sq_lin, E, N.lxor_nilpotent in G by exact H.
  rewrite (additive_0 _ (lin_add frob_tab)) in G. symmetry in G. apply N.lxor_eq in G.
  destruct (N.testbit x 127); auto.
Qed.

(** * Powers *)
Lemma gf_pow_blk x n : blk x -> blk (gf_pow x n).
Proof. intro H. induction n; cbn [gf_pow]; [apply gf_one_blk|]. now apply gf_mul_blk. Qed.
Lemma gf_pow_add x n m : blk x -> gf_pow x (n + m) = gf_mul (gf_pow x n) (gf_pow x m).
Proof.
  intro H. induction n as [|n IH]; cbn [gf_pow Nat.add].
  - symmetry. apply gf_mul_1_l. now apply gf_pow_blk.
  - rewrite IH. apply gf_mul_assoc; auto using gf_pow_blk.
Qed.


Definition pw (x n : N) : N := gf_pow x (N.to_nat n).
Lemma pw_add x n m : blk x -> pw x (n + m) = gf_mul (pw x n) (pw x m).
Proof. intro H. unfold pw. rewrite N2Nat.inj_add. now apply gf_pow_add. Qed.
Lemma pw_blk x n : blk x -> blk (pw x n).
Proof. apply gf_pow_blk. Qed.
Lemma pw_1 x : blk x -> pw x 1 = x.
Proof. intro H. unfold pw. change (N.to_nat 1) with 1%nat. cbn [gf_pow]. now apply gf_mul_1_r. Qed.

Lemma mod_pow2_succ len i : len mod 2 ^ N.succ i =
  (if N.testbit len i then 2 ^ i else 0) + len mod 2 ^ i.
Proof.
  rewrite N.pow_succ_r', (N.mul_comm 2), N.mod_mul_r by (try discriminate; apply N.pow_nonzero; discriminate).
  rewrite N.add_comm. f_equal. rewrite <- N.shiftr_div_pow2, <- (N.bit0_mod).
  rewrite N.shiftr_spec'. rewrite N.add_0_l. destruct (N.testbit len i); cbn [N.b2n]; lia.
Qed.

Lemma pow_loop a len n : blk a ->
  fold_left (pow_step len) (seq 1 n) (a, if N.testbit len 0 then a else N.shiftl 1 127) =
  (pw a (2 ^ N.of_nat n), pw a (len mod 2 ^ N.of_nat (S n))).
Proof.
  intro H. induction n as [|n IH].
  - cbn [seq fold_left]. f_equal; [now rewrite pw_1|].
    change (2 ^ N.of_nat 1) with (2 ^ N.succ 0). rewrite mod_pow2_succ. change (2 ^ 0) with 1.
    rewrite N.mod_1_r. destruct (N.testbit len 0); [symmetry; now apply pw_1|reflexivity].
  - rewrite seq_S, fold_left_app, IH. cbn [fold_left]. unfold pow_step. cbn [fst snd Nat.add].
    assert (E : mulBlock (pw a (2 ^ N.of_nat n)) (pw a (2 ^ N.of_nat n)) = pw a (2 ^ N.of_nat (S n))).
    { rewrite mulBlock_gf by (now apply pw_blk). rewrite <- pw_add by exact H. f_equal.
      rewrite pow2_S. lia. }
    rewrite E. f_equal.
    rewrite (Nat2N.inj_succ (S n)), mod_pow2_succ.
    destruct (N.testbit len (N.of_nat (S n))).
    + rewrite mulBlock_gf by (now apply pw_blk). symmetry. now apply pw_add.
    + now rewrite N.add_0_l.
Qed.

Lemma leading_zeros_spec n len : len < 2 ^ N.of_nat n ->
  (leading_zeros n len <= n)%nat /\ len < 2 ^ N.of_nat (n - leading_zeros n len).
Proof.
  revert len. induction n as [|n IH]; intros len H; cbn [leading_zeros]; [auto|].
  destruct (N.testbit len (N.of_nat n)) eqn:B.
  - split; [lia|]. now rewrite Nat.sub_0_r.
  - destruct (IH len) as [A1 A2].
    + apply lt_pow2_testbit. intros i Hi. destruct (N.eq_dec i (N.of_nat n)) as [->|Hn]; [exact B|].
      apply (testbit_high len (N.of_nat (S n))); [exact H|lia].
    + split; [lia|]. now rewrite Nat.sub_succ.
Qed.

Theorem powBlock_ok a len : blk a -> len < 2 ^ 64 -> powBlock a len = gf_pow a (N.to_nat len).
Proof.
  intros Ha Hl. unfold powBlock. rewrite pow_loop by exact Ha. cbn [snd]. unfold pw. do 2 f_equal.
  destruct (leading_zeros_spec 64 len Hl) as [L1 L2]. apply N.mod_small.
  eapply N.lt_le_trans; [exact L2|]. apply N.pow_le_mono_r; [discriminate|]. lia.
Qed.

(** * Inverse *)
(** product of a, a^2, a^4, .., a^(2^n) *)
Fixpoint fprod (n : nat) (a : N) : N :=
  match n with O => a | S k => gf_mul (sqn (S k) a) (fprod k a) end.
Lemma fprod_blk n a : blk a -> blk (fprod n a).
Proof. intro H. induction n; cbn [fprod]; [exact H|]. now apply gf_mul_blk. Qed.
Lemma inv_loop a n : blk a -> fold_left inv_step (seq 1 n) (a, a) = (sqn n a, fprod n a).
Proof.
  intro H. induction n as [|n IH]; [reflexivity|].
  rewrite seq_S, fold_left_app, IH. cbn [fold_left]. unfold inv_step. cbn [fst snd].
  assert (E : mulBlock (sqn n a) (sqn n a) = sqn (S n) a).
  { rewrite mulBlock_gf by (now apply sqn_blk). reflexivity. }
  rewrite E. cbn [fprod]. f_equal. apply mulBlock_gf; [now apply sqn_blk|now apply fprod_blk].
Qed.
Lemma sq_mul a b : blk a -> blk b -> sq (gf_mul a b) = gf_mul (sq a) (sq b).
Proof.
  intros Ha Hb. unfold sq.
  rewrite <- (gf_mul_assoc a b (gf_mul a b)) by auto using gf_mul_blk.
  rewrite (gf_mul_swap b a b), (gf_mul_assoc a a) by auto using gf_mul_blk. reflexivity.
Qed.
Lemma telescope a n : blk a -> gf_mul a (fprod n a) = sqn (S n) a.
Proof.
  intro H. induction n as [|n IH]; [reflexivity|].
  cbn [fprod]. rewrite gf_mul_swap, IH. reflexivity.
Qed.
Lemma invBlock_sq a : blk a -> invBlock a = sq (fprod 126 a).
Proof.
  intro H. unfold invBlock. rewrite inv_loop by exact H. cbn [snd].
  apply mulBlock_gf; now apply fprod_blk.
Qed.
Lemma sq_fprod_step n a : blk a -> gf_mul a (sq (fprod n a)) = fprod (S n) a.
Proof.
  intro H. induction n as [|n IH].
  - cbn [fprod]. change (sqn 1 a) with (sq a). apply gf_mul_comm; auto using sq_blk.
  - cbn [fprod]. rewrite sq_mul by (auto using sqn_blk, fprod_blk). rewrite gf_mul_swap, IH.
    reflexivity.
Qed.
Theorem invBlock_ok a : blk a -> a <> 0 -> gf_mul a (invBlock a) = gf_one.
Proof.
  intros H Hn. rewrite invBlock_sq, sq_fprod_step by exact H.
  set (e := fprod 127 a). assert (He : blk e) by (now apply fprod_blk).
  assert (Hae : gf_mul a e = a).
  { unfold e. rewrite telescope by exact H. now apply frob_128. }
  assert (Hee : sq e = e).
  { (* a * sq e = fprod 128 a = sqn 128 a * e = a * e *)
    unfold e at 2. rewrite <- (sq_fprod_step 126 a H).
    assert (S1 : sq e = gf_mul (sqn 128 a) (sq (fprod 126 a))).
    { unfold e. change (fprod 127 a) with (gf_mul (sqn 127 a) (fprod 126 a)).
      change (sqn 128 a) with (sq (sqn 127 a)).
      apply sq_mul; [now apply sqn_blk|now apply fprod_blk]. }
    rewrite S1, frob_128 by exact H. reflexivity. }
  destruct (idempotent e He Hee) as [E|E]; [|exact E].
  exfalso. apply Hn. rewrite <- Hae, E. apply gf_mul_0_r.
Qed.
Lemma invBlock_blk a : blk a -> blk (invBlock a).
Proof. intro H. rewrite invBlock_sq by exact H. apply sq_blk. now apply fprod_blk. Qed.
Lemma gf_no_zero_div a b : blk a -> blk b -> gf_mul a b = 0 -> a = 0 \/ b = 0.
Proof.
  intros Ha Hb E. destruct (N.eq_dec a 0) as [|Hn]; [now left|right].
  rewrite <- (gf_mul_1_l b Hb), <- (invBlock_ok a Ha Hn).
  rewrite (gf_mul_comm a (invBlock a)) by (auto using invBlock_blk).
  rewrite <- gf_mul_assoc by (auto using invBlock_blk). rewrite E. apply gf_mul_0_r.
Qed.
Lemma gf_cancel a b c : blk a -> blk b -> blk c -> a <> 0 -> gf_mul a b = gf_mul a c -> b = c.
Proof.
  intros Ha Hb Hc Hn E. apply N.lxor_eq.
  destruct (gf_no_zero_div a (N.lxor b c) Ha (lxor_blk _ _ Hb Hc)) as [|X]; [|contradiction|exact X].
  rewrite gf_mul_add_r, E. apply N.lxor_nilpotent.
Qed.
Lemma invBlock_0 : invBlock 0 = 0.
Proof. reflexivity. Qed.

(** * ghash *)
Lemma fold_ext_inv (f g : N -> N -> N) (P Q : N -> Prop) :
  (forall y x, P y -> Q x -> f y x = g y x /\ P (g y x)) ->
  forall xs, Forall Q xs -> forall y, P y -> fold_left f xs y = fold_left g xs y.
Proof.
  intros H. induction 1 as [|x xs Hx Hxs IH]; intros y Hy; [reflexivity|].
  cbn [fold_left]. destruct (H y x Hy Hx) as [E Hg]. rewrite E. apply IH, Hg.
Qed.
Lemma ghash_step h y x : blk h -> blk y -> blk x ->
  mulBlock (N.lxor y x) h = gf_mul (N.lxor y x) h /\ blk (gf_mul (N.lxor y x) h).
Proof.
  intros Hh Hy Hx. split; [|apply gf_mul_blk, Hh].
  exact (mulBlock_gf _ _ (lxor_blk _ _ Hy Hx) Hh).
Qed.
Theorem ghash_ok h xs : blk h -> Forall blk xs -> ghash h xs = ghash_spec h xs.
Proof.
  intros Hh Hxs. unfold ghash, ghash_spec.
  apply (fold_ext_inv (fun y xi => mulBlock (N.lxor y xi) h) (fun y x => gf_mul (N.lxor y x) h) blk blk).
  - intros y x Hy Hx. exact (ghash_step h y x Hh Hy Hx).
  - exact Hxs.
  - exact eq_refl.
Qed.

(** * The lane shifts are lane-wise shifts *)
Definition lane (i : N) (x : N) : N := N.shiftr x (32 * i) mod 2 ^ 32.
Lemma lane_bits i x j : N.testbit (lane i x) j = (j <? 32) && N.testbit x (32 * i + j).
Proof.
  unfold lane. rewrite <- N.land_ones, N.land_spec, N.shiftr_spec', N.add_comm, andb_comm. f_equal.
  destruct (N.ltb_spec j 32); [now apply N.ones_spec_low|now apply N.ones_spec_high].
Qed.

Lemma mod_pow_bits x n j : N.testbit (x mod 2 ^ n) j = (j <? n) && N.testbit x j.
Proof.
  rewrite <- N.land_ones, N.land_spec, andb_comm. f_equal.
  destruct (N.ltb_spec j n); [now apply N.ones_spec_low|now apply N.ones_spec_high].
Qed.
Lemma ones_bits n j : N.testbit (N.ones n) j = (j <? n).
Proof. destruct (N.ltb_spec j n); [now apply N.ones_spec_low|now apply N.ones_spec_high]. Qed.
Lemma shiftl_bits x n j : N.testbit (N.shiftl x n) j = (n <=? j) && N.testbit x (j - n).
Proof.
  destruct (N.leb_spec n j); cbn [andb]; [now apply N.shiftl_spec_high'|now apply N.shiftl_spec_low].
Qed.
Lemma rep4_bits m i j : (forall k, 32 <= k -> N.testbit m k = false) -> i < 4 -> j < 32 ->
  N.testbit (rep4 m) (32 * i + j) = N.testbit m j.
Proof.
  intros Hm Hi Hj. unfold rep4. rewrite !N.lor_spec, !shiftl_bits.
  assert (C : i = 0 \/ i = 1 \/ i = 2 \/ i = 3) by lia.
  assert (Z : forall k, 32 <= k -> N.testbit m k = false) by exact Hm.
  destruct C as [->|[->|[->| ->]]];
  repeat match goal with
  | |- context [N.leb ?a ?b] => destruct (N.leb_spec a b); try lia
  end; cbn [andb orb]; rewrite ?(Z (_ + j)) by lia; rewrite ?orb_false_r;
  repeat match goal with
  | |- context [N.testbit m (32 * ?a + j - ?b)] =>
      first [ replace (32 * a + j - b) with j by lia
            | rewrite (Z (32 * a + j - b)) by lia ]
  | |- context [N.testbit m (32 * ?a + j)] =>
      first [ replace (32 * a + j) with j by lia | rewrite (Z (32 * a + j)) by lia ]
  end; cbn [orb]; rewrite ?orb_false_r; reflexivity.
Qed.
Theorem slli_epi32_lane x n i : i < 4 -> n <= 32 ->
  lane i (slli_epi32 x n) = N.shiftl (lane i x) n mod 2 ^ 32.
Proof.
  intros Hi Hn. apply N.bits_inj. intro j. rewrite lane_bits, mod_pow_bits, shiftl_bits, lane_bits.
  destruct (N.ltb_spec j 32); [cbn [andb]|reflexivity].
  unfold slli_epi32. rewrite N.land_spec, rep4_bits, !shiftl_bits, ones_bits; auto.
  - destruct (N.leb_spec n j); cbn [andb].
    + replace (n <=? 32 * i + j) with true by (symmetry; apply N.leb_le; lia).
      replace (j - n <? 32 - n) with true by (symmetry; apply N.ltb_lt; lia).
      replace (j - n <? 32) with true by (symmetry; apply N.ltb_lt; lia).
      replace (32 * i + j - n) with (32 * i + (j - n)) by lia. cbn [andb]. now rewrite andb_true_r.
    + now rewrite andb_false_r.
  - intros k Hk. rewrite shiftl_bits, ones_bits.
    replace (k - n <? 32 - n) with false by (symmetry; apply N.ltb_ge; lia). apply andb_false_r.
Qed.
Theorem srli_epi32_lane x n i : i < 4 -> n <= 32 -> lane i (srli_epi32 x n) = N.shiftr (lane i x) n.
Proof.
  intros Hi Hn. apply N.bits_inj. intro j. rewrite lane_bits, N.shiftr_spec', lane_bits.
  destruct (N.ltb_spec j 32); cbn [andb].
  - unfold srli_epi32. rewrite N.land_spec, rep4_bits, ones_bits, N.shiftr_spec'; auto.
    + replace (32 * i + j + n) with (32 * i + (j + n)) by lia.
      destruct (N.ltb_spec j (32 - n)), (N.ltb_spec (j + n) 32); try lia; cbn [andb];
      rewrite ?andb_true_r, ?andb_false_r; reflexivity.
    + intros k Hk. rewrite ones_bits. apply N.ltb_ge. lia.
  - replace (j + n <? 32) with false by (symmetry; apply N.ltb_ge; lia). reflexivity.
Qed.
