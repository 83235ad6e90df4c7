(** Correctness of the prime-field OLE for every randomness and every hash. *)
From Coq Require Import List NArith ZArith Bool Arith Lia Ring Setoid.
From Verif Require Import L_Bits L_Res L_Modq M_Bn M_Ole P_Bn.
Import ListNotations.
Local Open Scope Z_scope.

Definition bound1000 (q : Z) : Prop := 1 < q <= 256 ^ Z.of_nat bn_buf.
Lemma bound_fits q x : bound1000 q -> 0 <= x < q -> (Z.abs_N x < 256 ^ N.of_nat bn_buf)%N.
Proof.
  intros [_ H] [H0 H1]. apply N2Z.inj_lt. rewrite N2Z.inj_abs_N, Z.abs_eq by auto.
  rewrite N2Z.inj_pow, nat_N_Z. change (Z.of_N 256) with 256. lia.
Qed.

Fixpoint wsum (exp : list Z) (bits : list bool) : Z :=
  match exp, bits with
  | e :: t, b :: u => (if b then e else 0) + wsum t u
  | _, _ => 0
  end.

Section P.
Variable ccrh : N -> N.
Variable q : Z.
Hypothesis Hq : bound1000 q.
Notation "a == b" := (cong q a b) (at level 70).

Local Opaque bn_H recv_bn send_bn.
Lemma row_ok Delta x : forall exp row bits oS oR rest,
  length row = length exp -> length bits = length exp -> 0 <= oS < q -> 0 <= oR < q ->
  let (oS', ms) := ole_send_loop ccrh q Delta x (combine exp row) oS in
  0 <= oS' < q /\ exists bytes oR', send_bns ms = Ok bytes /\
  ole_recv_loop ccrh q (combine exp (combine (cot_recv Delta row bits) bits)) oR (bytes ++ rest) = Ok (oR', rest) /\
  0 <= oR' < q /\ oS' + oR' == oS + oR + x * wsum exp bits.
Proof.
  assert (P := Hq). destruct P as [Q1 _].
  induction exp as [|e exp IH]; intros [|r row] [|b bits] oS oR rest L1 L2 HS HR; try discriminate.
  - cbn. split; [auto|]. exists [], oR. repeat split; auto; try lia. rewrite Z.mul_0_r, Z.add_0_r. reflexivity.
  - cbn [combine ole_send_loop].
    set (p1 := bn_H ccrh r q). set (p2 := bn_H ccrh (N.lxor r Delta) q).
    set (oS1 := BN_mod_add oS (BN_mod_mul e (q - p1) q) q).
    set (msg := BN_mod_add (p1 + p2) x q).
    set (m := if b then msg - p2 else p1).
    set (oR1 := BN_mod_add oR (BN_mod_mul e m q) q).
    assert (H1 : 0 <= oS1 < q) by (apply Z.mod_pos_bound; lia).
    assert (H2 : 0 <= oR1 < q) by (apply Z.mod_pos_bound; lia).
    assert (Hm : 0 <= msg < q) by (apply Z.mod_pos_bound; lia).
    specialize (IH row bits oS1 oR1 rest ltac:(cbn in L1; lia) ltac:(cbn in L2; lia) H1 H2).
    destruct (ole_send_loop _ _ _ _ _ _) as [oS' ms].
    destruct IH as (HS' & bytes & oR' & Eb & Er & HR' & Ec).
    split; [exact HS'|].
    destruct (recv_send msg (bytes ++ rest) (bound_fits q _ Hq Hm)) as (b1 & E1 & R1).
    exists (b1 ++ bytes), oR'. cbn [send_bns]. rewrite E1, Eb. cbn [bind]. split; [reflexivity|].
    cbn [cot_recv map2 combine ole_recv_loop]. rewrite <- app_assoc, R1. cbn [bind].
    rewrite Z.abs_eq by lia.
    replace (if b then msg - bn_H ccrh (if b then N.lxor r Delta else r) q else bn_H ccrh (if b then N.lxor r Delta else r) q)
      with m by (unfold m; destruct b; reflexivity).
    fold oR1. fold (cot_recv Delta row bits). rewrite Er. split; [reflexivity|]. split; [exact HR'|].
    rewrite Ec. cbn [wsum]. unfold oS1, oR1, BN_mod_add, BN_mod_mul. rewrite !mod_cong.
    assert (M : m == p1 + (if b then x else 0)).
    { unfold m. destruct b; [|rewrite Z.add_0_r; reflexivity]. unfold msg, BN_mod_add. rewrite mod_cong. clear - p1 p2. clearbody p1 p2. cring. }
    rewrite M, (q_minus_cong q p1). clearbody p1 p2 m; destruct b; cring.
Qed.

Theorem ole_ok bl Delta : forall in_s in_r raw, length in_r = length in_s -> length raw = length in_s ->
  Forall (fun r => length r = bl) raw ->
  exists os or_, ole_compute ccrh q bl Delta raw in_s in_r = Ok (os, or_, []) /\
    length os = length in_s /\ length or_ = length in_s /\
    Forall (fun x => 0 <= x < q) os /\ Forall (fun x => 0 <= x < q) or_ /\
    forall i, (i < length in_s)%nat ->
      nth i os 0 + nth i or_ 0 == nth i in_s 0 * wsum (ole_exp q bl) (ole_bits bl (nth i in_r 0)).
Proof.
  intros in_s in_r raw L1 L2 F. unfold ole_compute.
  enough (X : forall in_s in_r raw rest, length in_r = length in_s -> length raw = length in_s ->
    Forall (fun r => length r = bl) raw ->
    exists os bytes or_, ole_send ccrh q bl Delta raw in_s = Ok (os, bytes) /\
      ole_recv ccrh q bl (map2 (fun row x => cot_recv Delta row (ole_bits bl x)) raw in_r) in_r (bytes ++ rest) = Ok (or_, rest) /\
      length os = length in_s /\ length or_ = length in_s /\
      Forall (fun x => 0 <= x < q) os /\ Forall (fun x => 0 <= x < q) or_ /\
      forall i, (i < length in_s)%nat ->
        nth i os 0 + nth i or_ 0 == nth i in_s 0 * wsum (ole_exp q bl) (ole_bits bl (nth i in_r 0))).
  { destruct (X in_s in_r raw [] L1 L2 F) as (os & bytes & or_ & E1 & E2 & R).
    exists os, or_. rewrite E1. cbn [bind]. rewrite app_nil_r in E2. rewrite E2. cbn [bind]. split; [reflexivity|exact R]. }
  clear in_s in_r raw L1 L2 F.
  induction in_s as [|x in_s IH]; intros [|y in_r] [|row raw] rest L1 L2 F; try discriminate.
  - exists [], [], []. repeat split; auto. intros i Hi. cbn in Hi; lia.
  - inversion F as [|? ? Fr F' ]; subst. clear F.
    destruct (IH in_r raw rest ltac:(cbn in L1; lia) ltac:(cbn in L2; lia) F') as (os & bytes & or_ & E1 & E2 & Lo & Lr & Fo & Fr & C).
    cbn [ole_send map2 ole_recv].
    pose proof (row_ok Delta x (ole_exp q (length row)) row (ole_bits (length row) y) 0 0 (bytes ++ rest)) as R.
    destruct (ole_send_loop _ _ _ _ _ _) as [o ms].
    destruct R as (Ho & b1 & oR & Eb & Er & HR & Ec).
    { unfold ole_exp. now rewrite map_length, seq_length. }
    { unfold ole_exp, ole_bits. now rewrite !map_length. }
    { destruct Hq; lia. } { destruct Hq; lia. }
    rewrite Eb, E1. cbn [bind]. exists (o :: os), (b1 ++ bytes), (oR :: or_). split; [reflexivity|].
    rewrite <- app_assoc, Er. cbn [bind]. rewrite E2. cbn [bind]. split; [reflexivity|].
    cbn [length]. repeat split; auto; try lia.
    intros [|i] Hi; cbn [nth].
    + rewrite Ec. cring.
    + apply C. lia.
Qed.

(** the weighted sum of the choice bits is the receiver's input modulo 2^bit_length *)
Lemma wsum_bits bl y : wsum (ole_exp q bl) (ole_bits bl y) == Z.of_N (Z.abs_N y mod 2 ^ N.of_nat bl).
Proof.
  unfold ole_exp, ole_bits.
  enough (X : forall n k, wsum (map (fun i => BN_mod (2 ^ Z.of_nat i) q) (seq k n)) (map (BN_is_bit_set y) (seq k n)) ==
    2 ^ Z.of_nat k * Z.of_N (N.shiftr (Z.abs_N y) (N.of_nat k) mod 2 ^ N.of_nat n)).
  { rewrite X. rewrite N.shiftr_0_r. change (2 ^ Z.of_nat 0) with 1. now rewrite Z.mul_1_l. }
  induction n as [|n IH]; intro k.
  - cbn [seq map wsum]. change (2 ^ N.of_nat 0)%N with 1%N. rewrite N.mod_1_r. rewrite Z.mul_0_r. reflexivity.
  - cbn [seq map wsum]. rewrite IH. unfold BN_is_bit_set, BN_mod.
    set (w := N.shiftr (Z.abs_N y) (N.of_nat k)).
    replace (N.shiftr (Z.abs_N y) (N.of_nat (S k))) with (w / 2)%N.
    2: { unfold w. rewrite Nat2N.inj_succ, <- N.add_1_r, <- N.shiftr_shiftr. now rewrite (N.shiftr_div_pow2 _ 1). }
    replace (N.testbit (Z.abs_N y) (N.of_nat k)) with (N.odd w).
    2: { unfold w. rewrite <- N.bit0_odd, N.shiftr_spec' . reflexivity. }
    assert (E : (w mod 2 ^ N.of_nat (S n) = N.b2n (N.odd w) + 2 * ((w / 2) mod 2 ^ N.of_nat n))%N).
    { rewrite Nat2N.inj_succ, N.pow_succ_r', N.mod_mul_r by (try apply N.pow_nonzero; lia). f_equal.
      rewrite <- N.bit0_mod, N.bit0_odd. reflexivity. }
    rewrite E, N2Z.inj_add, N2Z.inj_mul. rewrite Nat2Z.inj_succ, Z.pow_succ_r by lia.
    change (Z.of_N 2) with 2. destruct (N.odd w); cbn [N.b2n]; [rewrite rem_cong|]; change (Z.of_N 1) with 1; change (Z.of_N 0) with 0.
    + cring.
    + cring.
Qed.
End P.

Theorem ole_correct : forall ccrh q bl Delta in_s in_r raw, bound1000 q ->
  length in_r = length in_s -> length raw = length in_s -> Forall (fun r => length r = bl) raw ->
  Forall (fun y => 0 <= y < 2 ^ Z.of_nat bl) in_r ->
  exists os or_, ole_compute ccrh q bl Delta raw in_s in_r = Ok (os, or_, []) /\
    length os = length in_s /\ length or_ = length in_s /\
    Forall (fun x => 0 <= x < q) os /\ Forall (fun x => 0 <= x < q) or_ /\
    forall i, (i < length in_s)%nat ->
      (nth i os 0 + nth i or_ 0) mod q = (nth i in_s 0 * nth i in_r 0) mod q.
Proof.
  intros ccrh q bl Delta in_s in_r raw Hq L1 L2 F B.
  destruct (ole_ok ccrh q Hq bl Delta in_s in_r raw L1 L2 F) as (os & or_ & E & Lo & Lr & Fo & Fr & C).
  exists os, or_. repeat (split; [assumption|]). intros i Hi.
  apply cong_iff; [destruct Hq; lia|]. rewrite C by auto. apply cong_mul; [reflexivity|].
  rewrite wsum_bits by auto. 
  assert (By : 0 <= nth i in_r 0 < 2 ^ Z.of_nat bl).
  { rewrite Forall_forall in B. apply B, nth_In. lia. }
  set (y := nth i in_r 0) in *.
  rewrite N.mod_small.
  - rewrite N2Z.inj_abs_N, Z.abs_eq by lia. reflexivity.
  - apply N2Z.inj_lt. rewrite N2Z.inj_abs_N, Z.abs_eq, N2Z.inj_pow, nat_N_Z by lia. apply By.
Qed.
