(** XOR shares from label bits. *)
From Coq Require Import List NArith Bool Arith Lia.
From Verif Require Import L_Bits L_Res L_Xor M_Shares P_Gf128 P_Utils S_Codec.
Import ListNotations.
Local Open Scope N_scope.

Lemma itb_invariant lsb n : (n <= 64)%nat ->
  forall k, N.testbit (fold_left (itb_step lsb) (seq 0 n) 0) k =
    if (k <? N.of_nat n) || ((64 <=? k) && (k <? 64 + N.of_nat n)) then nth (N.to_nat k) lsb false else false.
Proof.
  induction n as [|n IH]; intros Hn k.
  - cbn [seq fold_left]. rewrite N.bits_0. change (N.of_nat 0) with 0. rewrite N.add_0_r.
    destruct (N.ltb_spec k 0); [lia|]. cbn [orb].
    destruct (N.leb_spec 64 k), (N.ltb_spec k 64); try lia; reflexivity.
  - rewrite seq_S, fold_left_app. cbn [fold_left]. unfold itb_step at 1. cbn [Nat.add].
    set (f := fold_left (itb_step lsb) (seq 0 n) 0) in *.
    assert (E : N.testbit (let b := if nth n lsb false then N.lxor f (N.shiftl 1 (N.of_nat n)) else f in
        if nth (n + 64) lsb false then N.lxor b (N.shiftl (N.shiftl 1 (N.of_nat n)) 64) else b) k =
      xorb (xorb (N.testbit f k) (nth n lsb false && (k =? N.of_nat n))) (nth (n + 64) lsb false && (k =? N.of_nat n + 64))).
    { assert (P : forall j, N.testbit (N.shiftl 1 j) k = (k =? j)).
      { intro j. rewrite shiftl_bits. destruct (N.eqb_spec k j) as [->|Hk].
        - rewrite N.leb_refl, N.sub_diag. reflexivity.
        - destruct (N.leb_spec j k); [|reflexivity]. cbn [andb].
          destruct (k - j) eqn:X; [lia|reflexivity]. }
      assert (P2 : N.testbit (N.shiftl (N.shiftl 1 (N.of_nat n)) 64) k = (k =? N.of_nat n + 64)).
      { rewrite N.shiftl_shiftl. apply P. }
      cbv zeta. destruct (nth n lsb false), (nth (n + 64) lsb false); rewrite ?N.lxor_spec, ?P, ?P2; cbn [andb];
      rewrite ?xorb_false_r; reflexivity. }
    cbv zeta in E. rewrite E, IH by lia. clear E.
    destruct (N.eqb_spec k (N.of_nat n)) as [->|H1].
    { rewrite Nat2N.id. 
      replace (N.of_nat n <? N.of_nat n) with false by (symmetry; apply N.ltb_ge; lia).
      replace (N.of_nat n <? N.of_nat (S n)) with true by (symmetry; apply N.ltb_lt; lia).
      replace (64 <=? N.of_nat n) with false by (symmetry; apply N.leb_gt; lia).
      replace (N.of_nat n =? N.of_nat n + 64) with false by (symmetry; apply N.eqb_neq; lia).
      cbn [orb andb]. rewrite andb_false_r, andb_true_r, xorb_false_r. apply xorb_false_l. }
    destruct (N.eqb_spec k (N.of_nat n + 64)) as [->|H2].
    { replace (N.to_nat (N.of_nat n + 64)) with (n + 64)%nat by lia.
      replace (N.of_nat n + 64 <? N.of_nat n) with false by (symmetry; apply N.ltb_ge; lia).
      replace (N.of_nat n + 64 <? N.of_nat (S n)) with false by (symmetry; apply N.ltb_ge; lia).
      replace (64 <=? N.of_nat n + 64) with true by (symmetry; apply N.leb_le; lia).
      replace (N.of_nat n + 64 <? 64 + N.of_nat n) with false by (symmetry; apply N.ltb_ge; lia).
      replace (N.of_nat n + 64 <? 64 + N.of_nat (S n)) with true by (symmetry; apply N.ltb_lt; lia).
      cbn [orb andb]. rewrite andb_false_r, andb_true_r. cbn [xorb]. apply xorb_false_l. }
    rewrite !andb_false_r, !xorb_false_r.
    assert (X1 : (k <? N.of_nat (S n)) = (k <? N.of_nat n))
      by (destruct (N.ltb_spec k (N.of_nat n)), (N.ltb_spec k (N.of_nat (S n))); try reflexivity; lia).
    assert (X2 : (k <? 64 + N.of_nat (S n)) = (k <? 64 + N.of_nat n))
      by (destruct (N.ltb_spec k (64 + N.of_nat n)), (N.ltb_spec k (64 + N.of_nat (S n))); try reflexivity; lia).
    now rewrite X1, X2.
Qed.

Lemma integer_to_block_ok lsb : length lsb = 128%nat -> integer_to_block lsb = Ok (N_of_bits lsb).
Proof.
  intro H. unfold integer_to_block. rewrite H. cbn [Nat.eqb]. f_equal.
  apply N.bits_inj. intro k. rewrite itb_invariant by lia. rewrite testbit_N_of_bits'.
  destruct (N.ltb_spec k (N.of_nat 64)); cbn [orb]; [reflexivity|].
  replace (64 <=? k) with true by (symmetry; apply N.leb_le; lia). cbn [andb].
  destruct (N.ltb_spec k (64 + N.of_nat 64)); [reflexivity|].
  rewrite nth_overflow; [reflexivity|]. lia.
Qed.

Lemma itb_share m x : length m = 128%nat -> length x = 128%nat ->
  exists a b, integer_to_block m = Ok a /\ integer_to_block (bxor m x) = Ok b /\
    N.lxor a b = N_of_bits x /\ a < 2 ^ 128 /\ b < 2 ^ 128 /\ bits_of_N 128 a = m.
Proof.
  intros Hm Hx. exists (N_of_bits m), (N_of_bits (bxor m x)).
  assert (L : length (bxor m x) = 128%nat) by (rewrite bxor_length; congruence).
  rewrite !integer_to_block_ok by assumption. split; [reflexivity|]. split; [reflexivity|].
  rewrite N_of_bits_bxor by congruence.
  split; [xor_solve|]. split; [|split].
  - pose proof (N_of_bits_lt m) as X. now rewrite Hm in X.
  - rewrite <- N_of_bits_bxor by congruence. pose proof (N_of_bits_lt (bxor m x)) as X. now rewrite L in X.
  - now apply bits_of_N_of_bits'.
Qed.

(** big-endian bytes of an Integer *)
Definition bytes_be (x : list bool) : list N := map N_of_be (chunks 8 (rev x)).

Lemma itc_byte_ok c : length c = 8%nat -> itc_byte c = N_of_be c.
Proof.
  destruct c as [|b0 [|b1 [|b2 [|b3 [|b4 [|b5 [|b6 [|b7 [|]]]]]]]]]; try discriminate. intros _.
  destruct b0, b1, b2, b3, b4, b5, b6, b7; reflexivity.
Qed.
Lemma integer_to_chars_ok lsb k : length lsb = (8 * k)%nat -> integer_to_chars lsb = Ok (bytes_be lsb).
Proof.
  intro H. unfold integer_to_chars. rewrite H, Nat.mul_comm, Nat.mod_mul by lia. cbn [Nat.eqb].
  f_equal. unfold bytes_be. apply map_ext_in. intros c Hc. apply itc_byte_ok.
  assert (F : Forall (fun c => length c = 8%nat) (chunks 8 (rev lsb))).
  { apply (chunks_all_length 8 _ k); [lia|]. now rewrite rev_length. }
  rewrite Forall_forall in F. now apply F.
Qed.

Lemma bytes_be_bxor x y k : length x = (8 * k)%nat -> length y = (8 * k)%nat ->
  bytes_be (bxor x y) = map2 N.lxor (bytes_be x) (bytes_be y).
Proof.
  intros Hx Hy. unfold bytes_be, bxor. rewrite <- map2_rev by congruence.
  assert (Lx : length (rev x) = (8 * k)%nat) by (now rewrite rev_length).
  assert (Ly : length (rev y) = (8 * k)%nat) by (now rewrite rev_length).
  revert Lx Ly. generalize (rev x) (rev y). clear. intros x y. revert x y.
  induction k as [|k IH]; intros x y Hx Hy.
  - destruct x, y; try discriminate. reflexivity.
  - rewrite <- (firstn_skipn 8 x), <- (firstn_skipn 8 y).
    assert (A : length (firstn 8 x) = 8%nat) by (rewrite firstn_length; lia).
    assert (B : length (firstn 8 y) = 8%nat) by (rewrite firstn_length; lia).
    rewrite map2_app by congruence. rewrite !chunks_app by (rewrite ?map2_length; lia).
    cbn [map map2]. f_equal.
    + unfold N_of_be. rewrite <- map2_rev by congruence. apply N_of_bits_bxor. rewrite !rev_length. congruence.
    + apply IH; rewrite skipn_length; lia.
Qed.
Lemma bytes_be_length x k : length x = (8 * k)%nat -> length (bytes_be x) = k.
Proof.
  intro H. unfold bytes_be. rewrite map_length. apply chunks_length; [lia|]. now rewrite rev_length.
Qed.
Lemma bytes_be_bytes x k : length x = (8 * k)%nat -> Forall (fun b => b < 256) (bytes_be x).
Proof.
  intro H. unfold bytes_be. rewrite Forall_map.
  assert (F : Forall (fun c => length c = 8%nat) (chunks 8 (rev x))).
  { apply (chunks_all_length 8 _ k); [lia|]. now rewrite rev_length. }
  eapply Forall_impl; [|exact F]. intros c Hc. unfold N_of_be.
  eapply N.lt_le_trans; [apply N_of_bits_lt|]. rewrite rev_length. cbv beta in Hc. rewrite Hc. reflexivity.
Qed.
Lemma bytes_be_app x y k j : length x = (8 * k)%nat -> length y = (8 * j)%nat ->
  bytes_be (x ++ y) = bytes_be y ++ bytes_be x.
Proof.
  intros Hx Hy. unfold bytes_be. rewrite rev_app_distr.
  assert (Ly : length (rev y) = (8 * j)%nat) by (now rewrite rev_length).
  revert Ly. generalize (rev y). clear Hy. clear y. induction j as [|j IH]; intros y Hy.
  - destruct y; [reflexivity|discriminate].
  - rewrite <- (firstn_skipn 8 y) at 1 2.
    assert (B : length (firstn 8 y) = 8%nat) by (rewrite firstn_length; lia).
    rewrite <- app_assoc, (chunks_app 8 (firstn 8 y) (skipn 8 y ++ rev x)) by lia.
    rewrite (chunks_app 8 (firstn 8 y) (skipn 8 y)) by lia. cbn [map app]. f_equal. apply IH.
    rewrite skipn_length. lia.
Qed.
Lemma bytes_be_bits n x : bytes_be (bits_of_N (8 * n) x) = be_enc n x.
Proof.
  revert x. induction n as [|n IH]; intro x; [reflexivity|].
  replace (8 * S n)%nat with (8 + 8 * n)%nat by lia. rewrite bits_of_N_app.
  rewrite (bytes_be_app _ _ 1 n) by (rewrite bits_of_N_length; lia). rewrite IH. cbn [be_enc].
  f_equal; [f_equal; rewrite N.shiftr_div_pow2; reflexivity|].
  unfold bytes_be. rewrite chunks_small.
  - cbn [map]. unfold N_of_be. rewrite rev_involutive, N_of_bits_of_N. reflexivity.
  - lia.
  - cbn. discriminate.
  - rewrite rev_length, bits_of_N_length. lia.
Qed.
Lemma bytes_be_rev_reveal x k : length x = (8 * k)%nat -> rev (map N_of_bits (chunks 8 x)) = bytes_be x.
Proof.
  revert x. induction k as [|k IH]; intros x H.
  - destruct x; [reflexivity|discriminate].
  - rewrite <- (firstn_skipn 8 x).
    assert (A : length (firstn 8 x) = 8%nat) by (rewrite firstn_length; lia).
    rewrite (bytes_be_app _ _ 1 k) by (rewrite ?skipn_length; lia).
    rewrite chunks_app by lia. cbn [map rev]. rewrite IH by (rewrite skipn_length; lia). f_equal.
    unfold bytes_be. rewrite chunks_small.
    + cbn [map]. unfold N_of_be. now rewrite rev_involutive.
    + lia.
    + intro E. apply (f_equal (@length bool)) in E. rewrite rev_length, A in E. discriminate.
    + rewrite rev_length. lia.
Qed.
Lemma itc_share m x k : length m = (8 * k)%nat -> length x = (8 * k)%nat ->
  exists a b, integer_to_chars m = Ok a /\ integer_to_chars (bxor m x) = Ok b /\
    map2 N.lxor a b = bytes_be x /\ length a = k /\ length b = k /\
    Forall (fun b => b < 256) a /\ Forall (fun b => b < 256) b.
Proof.
  intros Hm Hx. exists (bytes_be m), (bytes_be (bxor m x)).
  assert (L : length (bxor m x) = (8 * k)%nat) by (rewrite bxor_length; congruence).
  rewrite !(integer_to_chars_ok _ k) by assumption.
  split; [reflexivity|]. split; [reflexivity|].
  split; [|split; [|split; [|split]]]; eauto using bytes_be_length, bytes_be_bytes.
  rewrite <- (bytes_be_bxor _ _ k) by assumption. f_equal.
  rewrite <- bxor_assoc, bxor_nilpotent, bxor_comm. apply bxor_false_r. congruence.
Qed.

(** the vector variant: entry i is the i-th 128-bit group from the top *)
Lemma fold_res_map {A} (f : nat -> res A) (g : nat -> A) l : Forall (fun i => f i = Ok (g i)) l ->
  fold_right (fun i acc => (let* b := f i in let* t := acc in Ok (b :: t))%res) (Ok []) l = Ok (map g l).
Proof.
  induction 1 as [|i l Hi Hl IH]; [reflexivity|]. cbn [fold_right map]. now rewrite Hi, IH.
Qed.
Lemma integer_to_blocks_ok lsb k : length lsb = (128 * k)%nat ->
  integer_to_blocks lsb = Ok (map (fun i => N_of_bits (firstn 128 (skipn (128 * (k - (i + 1))) lsb))) (seq 0 k)).
Proof.
  intro H. unfold integer_to_blocks. rewrite H, Nat.mul_comm, Nat.mod_mul, Nat.div_mul by lia. cbn [Nat.eqb].
  apply fold_res_map. apply Forall_forall. intros i Hi. apply in_seq in Hi.
  replace (k * 128 - 128 * (i + 1))%nat with (128 * (k - (i + 1)))%nat by lia.
  apply integer_to_block_ok. rewrite firstn_length, skipn_length. lia.
Qed.
Lemma group_bxor m x i : length m = length x ->
  N_of_bits (firstn 128 (skipn i (bxor m x))) =
  N.lxor (N_of_bits (firstn 128 (skipn i m))) (N_of_bits (firstn 128 (skipn i x))).
Proof.
  intro L. rewrite <- N_of_bits_bxor by (rewrite !firstn_length, !skipn_length; lia). f_equal.
  revert i m x L.
  assert (F : forall n (m x : list bool), firstn n (bxor m x) = bxor (firstn n m) (firstn n x)).
  { induction n as [|n IH]; intros [|a m] [|b x]; try reflexivity. cbn. f_equal. apply IH. }
  intros i m x L. rewrite <- F. f_equal. clear L. revert m x. 
  induction i as [|i IH]; intros [|a m] [|b x]; try reflexivity.
  - cbn. destruct (skipn i m); reflexivity.
  - cbn. apply IH.
Qed.
Lemma itbs_share m x k : length m = (128 * k)%nat -> length x = (128 * k)%nat ->
  exists a b, integer_to_blocks m = Ok a /\ integer_to_blocks (bxor m x) = Ok b /\
    map2 N.lxor a b = map (fun i => N_of_bits (firstn 128 (skipn (128 * (k - (i + 1))) x))) (seq 0 k).
Proof.
  intros Hm Hx. assert (L : length (bxor m x) = (128 * k)%nat) by (rewrite bxor_length; congruence).
  eexists _, _. split; [apply (integer_to_blocks_ok _ _ Hm)|]. split; [apply (integer_to_blocks_ok _ _ L)|].
  generalize (seq 0 k). induction l as [|i l IH]; [reflexivity|]. cbn [map map2]. f_equal; [|exact IH].
  rewrite group_bxor by congruence. xor_solve.
Qed.
