(** Correctness of VOPE up to length 64, and its failure beyond. *)
From Coq Require Import List NArith Bool Arith Lia.
From Verif Require Import L_Bits L_Res L_Xor S_Gcm M_Block M_Ole2k M_Vope P_Gf128 P_Ole2k.
Import ListNotations.
Local Open Scope N_scope.
Local Opaque gf_mul mulBlock.

(** the value of the polynomial with coefficients l (constant term first) at h *)
Definition poly_eval (h : N) (l : list N) : N := fold_right (fun c acc => N.lxor c (gf_mul h acc)) 0 l.

Lemma upd_length i v l : length (upd i v l) = length l.
Proof. revert i; induction l; destruct i; cbn; auto. Qed.
Lemma rd_upd i v l j : rd (upd i v l) j = if (i =? j)%nat && (i <? length l)%nat then v else rd l j.
Proof.
  unfold rd. revert i j; induction l as [|x l IH]; intros i j.
  - rewrite andb_false_r. now destruct i.
  - destruct i, j; cbn; auto. rewrite IH. destruct (i =? j)%nat; auto.
Qed.
Lemma rd_upd_same i v l : (i < length l)%nat -> rd (upd i v l) i = v.
Proof. intro H. rewrite rd_upd, Nat.eqb_refl. apply Nat.ltb_lt in H. now rewrite H. Qed.
Lemma rd_upd_other i v l j : i <> j -> rd (upd i v l) j = rd l j.
Proof. intro H. rewrite rd_upd. apply Nat.eqb_neq in H. now rewrite H. Qed.

Lemma firstn_skipn_map l : forall k n, (k + n <= length l)%nat -> firstn n (skipn k l) = map (rd l) (seq k n).
Proof.
  induction l as [|x l IH]; intros k n H; cbn in H.
  - assert (n = 0 /\ k = 0)%nat as [-> ->] by lia. reflexivity.
  - destruct k as [|k].
    + destruct n as [|n]; [reflexivity|]. cbn [skipn firstn seq map]. f_equal.
      pose proof (IH 0%nat n ltac:(lia)) as E. cbn [skipn] in E. rewrite E, <- seq_shift, map_map. reflexivity.
    + cbn [skipn]. rewrite IH by lia. rewrite <- seq_shift, map_map. reflexivity.
Qed.
Lemma row_map (l : list N) i : (128 * i + 128 <= length l)%nat -> row i l = map (rd l) (seq (128 * i) 128).
Proof. apply firstn_skipn_map. Qed.

Section P.
Variable gf : N -> N -> N.
Hypothesis gf_l : forall b, additive (fun a => gf a b).
Hypothesis gf_r : forall a, additive (gf a).
Hypothesis gf_gcm : forall a b, blk a -> blk b -> gf a b = gf_mul a b.

(** ** packing is the correlation M = K + U h *)
Lemma inner_adjust h : forall (K : list N) (bits : list bool) base, length bits = length K -> length base = length K ->
  inner_prod gf (map2 (fun k (b : bool) => if b then N.lxor k h else k) K bits) base =
  N.lxor (inner_prod gf K base)
    (fold_right (fun p acc => N.lxor (if (fst p : bool) then gf h (snd p) else 0) acc) 0 (combine bits base)).
Proof.
  induction K as [|k K IH]; intros [|b bits] [|d base] L1 L2; try discriminate; [reflexivity|].
  cbn [map2 combine fold_right fst snd]. rewrite !inner_cons, IH by (cbn in *; lia).
  destruct b.
  - rewrite (gf_l d k h). rewrite lxor4. reflexivity.
  - rewrite N.lxor_0_l, N.lxor_assoc. reflexivity.
Qed.
Lemma pack_corr h K bits : length K = 128%nat -> length bits = 128%nat -> blk h ->
  packing gf (map2 (fun k (b : bool) => if b then N.lxor k h else k) K bits) =
  N.lxor (packing gf K) (gf_mul h (bool_to_block bits)).
Proof.
  intros LK LB Hh. unfold packing, bool_to_block.
  rewrite inner_adjust by (unfold pack_base; rewrite ?map_length, ?seq_length; congruence).
  f_equal. rewrite <- (bits_of_N_of_bits bits) at 1. rewrite LB. unfold pack_base.
  rewrite (bit_sum gf gf_r). rewrite N.shiftl_0_r.
  assert (B : N_of_bits bits < 2 ^ 128) by (pose proof (N_of_bits_lt bits) as B; rewrite LB in B; exact B).
  change (2 ^ N.of_nat 128) with (2 ^ 128). rewrite N.mod_small by exact B. apply gf_gcm; auto.
Qed.
Lemma inner_blk : forall K base, Forall blk K -> Forall blk base -> blk (inner_prod gf K base).
Proof.
  induction K as [|k K IH]; intros [|d base] HK HB; try (unfold inner_prod; cbn; unfold blk; now apply pow2_pos).
  rewrite inner_cons. inversion HK; inversion HB; subst. apply lxor_blk; auto.
  rewrite gf_gcm by auto. now apply gf_mul_blk.
Qed.
Lemma base_blk : Forall blk pack_base.
Proof.
  unfold pack_base. apply Forall_forall. intros x Hx. apply in_map_iff in Hx as (j & <- & Hj).
  apply in_seq in Hj. unfold blk. rewrite N.shiftl_1_l. apply N.pow_lt_mono_r; lia.
Qed.
Lemma packing_blk K : Forall blk K -> blk (packing gf K).
Proof. intro H. apply inner_blk; auto. apply base_blk. Qed.

(** ** first loop: packing in place *)
Lemma pack_loop oles bits M0 : (oles <= 127)%nat -> length M0 = (128 * oles)%nat ->
  forall n, (n <= oles)%nat ->
  let M := fold_left (vope_pack_step gf oles bits) (seq 0 n) M0 in
  length M = length M0 /\
  (forall k, (k < n)%nat -> rd M k = packing gf (row k M0) /\ rd M (oles + k) = bool_to_block (row k bits)) /\
  (forall j, (128 * n <= j)%nat -> rd M j = rd M0 j).
Proof.
  intros Ho L. induction n as [|n IH]; intro Hn; cbn zeta.
  - cbn [seq fold_left]. split; [reflexivity|]. split; [intros; lia|auto].
  - rewrite seq_S, fold_left_app. cbn [fold_left Nat.add].
    destruct (IH ltac:(lia)) as (L' & A & B). set (M := fold_left _ _ _) in *. clearbody M.
    unfold vope_pack_step.
    assert (R : row n M = row n M0).
    { rewrite !row_map by lia. apply map_ext_in. intros j Hj. apply in_seq in Hj. apply B. lia. }
    rewrite R. split; [rewrite !upd_length; exact L'|]. split.
    + intros k Hk. destruct (Nat.eq_dec k n) as [->|Nk].
      * split; [rewrite rd_upd_other by lia; apply rd_upd_same; lia|].
        apply rd_upd_same. rewrite upd_length. lia.
      * destruct (A k ltac:(lia)) as [A1 A2]. rewrite !rd_upd_other by lia. auto.
    + intros j Hj. rewrite !rd_upd_other by lia. apply B. lia.
Qed.

(** ** inner loop of the second phase *)
Lemma t_loop oles i out M0 : (i < oles)%nat -> length M0 = (128 * oles)%nat ->
  forall n, (n <= oles)%nat ->
  let M := fold_left (vope_t_step oles i out) (seq 0 n) M0 in
  length M = length M0 /\
  (forall j, (j < n)%nat -> rd M (2 * oles + j) = mulBlock (rd out j) (rd M0 i) /\
                            rd M (3 * oles + j) = mulBlock (rd out j) (rd M0 (oles + i))) /\
  (forall j, (j < 2 * oles)%nat -> rd M j = rd M0 j).
Proof.
  intros Hi L. induction n as [|n IH]; intro Hn; cbn zeta.
  - cbn [seq fold_left]. split; [reflexivity|]. split; [intros; lia|auto].
  - rewrite seq_S, fold_left_app. cbn [fold_left Nat.add].
    destruct (IH ltac:(lia)) as (L' & A & B). set (M := fold_left _ _ _) in *. clearbody M.
    unfold vope_t_step. split; [rewrite !upd_length; exact L'|]. split.
    + intros j Hj. rewrite (rd_upd_other _ _ _ (oles + i)) by lia. rewrite !B by lia.
      destruct (Nat.eq_dec j n) as [->|Nj].
      * split; [rewrite rd_upd_other by lia; apply rd_upd_same; lia|apply rd_upd_same; rewrite upd_length; lia].
      * rewrite !(rd_upd_other _ _ _ _) by lia. apply A. lia.
    + intros j Hj. rewrite !(rd_upd_other _ _ _ j) by lia. apply B. lia.
Qed.
Lemma out_loop f out : forall n, (n < length out)%nat ->
  let o := fold_left (fun out j => upd j (f j) out) (seq 1 n) out in
  length o = length out /\ forall j, rd o j = if (1 <=? j)%nat && (j <=? n)%nat then f j else rd out j.
Proof.
  induction n as [|n IH]; intro Hn; cbn zeta.
  - cbn [seq fold_left]. split; [reflexivity|]. intro j. destruct j; reflexivity.
  - rewrite seq_S, fold_left_app. cbn [fold_left Nat.add]. destruct (IH ltac:(lia)) as (L & A).
    set (o := fold_left _ _ _) in *. clearbody o. rewrite upd_length. split; [exact L|].
    intro j. rewrite rd_upd, A.
    destruct (Nat.eqb_spec (S n) j) as [<-|Nj].
    + destruct (Nat.ltb_spec (S n) (length o)); [|lia]. cbn [andb]. now rewrite Nat.leb_refl.
    + cbn [andb]. destruct (Nat.leb_spec 1 j), (Nat.leb_spec j n), (Nat.leb_spec j (S n)); cbn; try reflexivity; lia.
Qed.

(** ** polynomials as coefficient functions *)
Fixpoint pe (h : N) (n : nat) (f : nat -> N) : N :=
  match n with O => 0 | S k => N.lxor (f 0%nat) (gf_mul h (pe h k (fun j => f (S j)))) end.
Lemma pe_ext h n : forall f g, (forall j, (j < n)%nat -> f j = g j) -> pe h n f = pe h n g.
Proof.
  induction n; intros f g H; cbn; [reflexivity|]. rewrite H by lia. f_equal. f_equal. apply IHn. intros; apply H; lia.
Qed.
Lemma pe_blk h n : forall f, (forall j, (j < n)%nat -> blk (f j)) -> blk (pe h n f).
Proof.
  induction n; intros f H; cbn; [unfold blk; now apply pow2_pos|].
  apply lxor_blk; [apply H; lia|]. apply gf_mul_blk. apply IHn. intros; apply H; lia.
Qed.
Lemma pe_add h n : forall f g, pe h n (fun j => N.lxor (f j) (g j)) = N.lxor (pe h n f) (pe h n g).
Proof.
  induction n; intros f g; cbn; [reflexivity|]. rewrite IHn, gf_mul_add_r. apply lxor4.
Qed.
Lemma pe_scale h c n : forall f, blk h -> blk c -> (forall j, (j < n)%nat -> blk (f j)) ->
  pe h n (fun j => gf_mul (f j) c) = gf_mul (pe h n f) c.
Proof.
  induction n; intros f Hh Hc H; cbn; [now rewrite gf_mul_0_l|].
  assert (B : blk (pe h n (fun j => f (S j)))) by (apply pe_blk; intros; apply H; lia).
  rewrite IHn by (auto; intros; apply H; lia). rewrite gf_mul_add_l. f_equal. now rewrite gf_mul_assoc.
Qed.
Lemma pe_top0 h n : forall f, f n = 0 -> pe h (S n) f = pe h n f.
Proof.
  induction n; intros f H.
  - cbn. now rewrite H, gf_mul_0_r.
  - change (pe h (S (S n)) f) with (N.lxor (f 0%nat) (gf_mul h (pe h (S n) (fun j => f (S j))))).
    rewrite IHn by exact H. reflexivity.
Qed.
Lemma pe_map h n : forall f, pe h n f = poly_eval h (map f (seq 0 n)).
Proof.
  induction n; intros f; [reflexivity|]. cbn [pe seq map poly_eval fold_right]. f_equal. f_equal.
  rewrite IHn, <- seq_shift, map_map. reflexivity.
Qed.
Lemma pe_zero h n : pe h n (fun _ => 0) = 0.
Proof. induction n; cbn; [reflexivity|]. now rewrite IHn, gf_mul_0_r. Qed.

(** multiplying by (m + u X) and adding (m' + u' X) *)
Lemma pe_step h i (f : nat -> N) m u m' u' : blk h -> blk m -> blk u -> blk m' -> blk u' -> (1 <= i)%nat ->
  (forall j, (j <= i)%nat -> blk (f j)) ->
  pe h (S (S i)) (fun j =>
    N.lxor (N.lxor (if (j <=? i)%nat then gf_mul (f j) m else 0)
                   (match j with O => 0 | S k => gf_mul (f k) u end))
           (match j with O => m' | 1%nat => u' | _ => 0 end)) =
  N.lxor (gf_mul (pe h (S i) f) (N.lxor m (gf_mul h u))) (N.lxor m' (gf_mul h u')).
Proof.
  intros Hh Hm Hu Hm' Hu' Hi Hf. rewrite !pe_add. f_equal.
  - rewrite gf_mul_add_r. f_equal.
    + rewrite pe_top0.
      2: { destruct (Nat.leb_spec (S i) i); [lia|reflexivity]. }
      rewrite <- pe_scale by (auto; intros; apply Hf; lia). apply pe_ext. intros j Hj.
      destruct (Nat.leb_spec j i); [reflexivity|lia].
    + change (pe h (S (S i)) ?g) with (N.lxor (g 0%nat) (gf_mul h (pe h (S i) (fun j => g (S j))))).
      cbv beta. rewrite N.lxor_0_l.
      rewrite pe_scale by (auto; intros; apply Hf; lia).
      apply gf_mul_swap.
  - destruct i as [|i]; [lia|]. cbn [pe]. f_equal. f_equal.
    now rewrite pe_zero, N.lxor_0_l, !gf_mul_0_r, N.lxor_0_r.
Qed.

(** ** one step of the receiver's second loop *)
Lemma step_ok len oles h i M out (f : nat -> N) :
  oles = (2 * len - 1)%nat -> (1 <= i)%nat -> (i < len)%nat -> length M = (128 * oles)%nat -> (len + 1 <= length out)%nat ->
  blk h -> (forall j, (j < 2 * oles)%nat -> blk (rd M j)) ->
  (forall j, (j <= i)%nat -> blk (rd out j)) ->
  let (M', out') := vope_step len oles (M, out) i in
  length M' = length M /\ length out' = length out /\
  (forall j, (j < 2 * oles)%nat -> rd M' j = rd M j) /\
  (forall j, (j <= S i)%nat -> blk (rd out' j)) /\
  pe h (S (S i)) (rd out') =
    N.lxor (gf_mul (pe h (S i) (rd out)) (N.lxor (rd M i) (gf_mul h (rd M (oles + i)))))
           (N.lxor (rd M (len + i - 1)) (gf_mul h (rd M (oles + (len + i - 1))))).
Proof.
  intros Ho Hi Hl LM LO Hh BM BO. unfold vope_step.
  pose proof (t_loop oles i out M ltac:(lia) LM (S i) ltac:(lia)) as T. cbn zeta in T.
  set (M1 := fold_left (vope_t_step oles i out) (seq 0 (S i)) M) in *. clearbody M1.
  destruct T as (LM1 & T & K).
  set (g := fun j => N.lxor (rd M1 (3 * oles + (j - 1))) (rd M1 (2 * oles + j))).
  set (o1 := upd 0 (rd M1 (2 * oles)) out).
  assert (Lo1 : length o1 = length out) by apply upd_length.
  pose proof (out_loop g o1 i ltac:(lia)) as O. cbn zeta in O.
  change (fold_left (fun out0 j => upd j (N.lxor (rd M1 (3 * oles + (j - 1))) (rd M1 (2 * oles + j))) out0) (seq 1 i) o1)
    with (fold_left (fun out0 j => upd j (g j) out0) (seq 1 i) o1).
  set (o2 := fold_left (fun out0 j => upd j (g j) out0) (seq 1 i) o1) in *. clearbody o2.
  destruct O as (Lo2 & O).
  set (o3 := upd (i + 1) (rd M1 (3 * oles + i)) o2).
  assert (Lo3 : length o3 = length out) by (unfold o3; rewrite upd_length; lia).
  set (o4 := upd 0 (N.lxor (rd o3 0) (rd M1 (len + i - 1))) o3).
  assert (Lo4 : length o4 = length out) by (unfold o4; rewrite upd_length; lia).
  assert (Bm : blk (rd M i)) by (apply BM; lia). assert (Bu : blk (rd M (oles + i))) by (apply BM; lia).
  assert (Bm' : blk (rd M (len + i - 1))) by (apply BM; lia).
  assert (Bu' : blk (rd M (oles + (len + i - 1)))) by (apply BM; lia).
  assert (V : forall j, (j <= S i)%nat -> rd (upd 1 (N.lxor (rd o4 1) (rd M1 (oles + (len + i - 1)))) o4) j =
    N.lxor (N.lxor (if (j <=? i)%nat then gf_mul (rd out j) (rd M i) else 0)
                   (match j with O => 0 | S k => gf_mul (rd out k) (rd M (oles + i)) end))
           (match j with O => rd M (len + i - 1) | 1%nat => rd M (oles + (len + i - 1)) | _ => 0 end)).
  { intros j Hj. rewrite rd_upd.
    assert (V3 : forall j, (j <= S i)%nat -> rd o3 j =
       N.lxor (if (j <=? i)%nat then gf_mul (rd out j) (rd M i) else 0)
                   (match j with O => 0 | S k => gf_mul (rd out k) (rd M (oles + i)) end)).
    { clear j Hj. intros j Hj. unfold o3. rewrite rd_upd.
      destruct (Nat.eqb_spec (i + 1) j) as [E|N1].
      - destruct (Nat.ltb_spec (i + 1) (length o2)); [|lia]. cbn [andb].
        destruct j as [|j]; [lia|]. assert (j = i) by lia. subst j.
        destruct (Nat.leb_spec (S i) i); [lia|]. rewrite N.lxor_0_l.
        destruct (T i ltac:(lia)) as [_ T2]. rewrite T2. apply mulBlock_gf; [apply BO; lia|exact Bu].
      - cbn [andb]. rewrite O. destruct j as [|j].
        + cbn [Nat.leb andb]. unfold o1. rewrite rd_upd_same by lia.
          destruct (T 0%nat ltac:(lia)) as [T1 _]. rewrite Nat.add_0_r in T1. rewrite T1, N.lxor_0_r.
          apply mulBlock_gf; [apply BO; lia|exact Bm].
        + destruct (Nat.leb_spec 1 (S j)); [|lia]. destruct (Nat.leb_spec (S j) i); [|lia]. cbn [andb].
          unfold g. replace (S j - 1)%nat with j by lia.
          destruct (T j ltac:(lia)) as [_ T2]. destruct (T (S j) ltac:(lia)) as [T1 _]. rewrite T1, T2.
          rewrite N.lxor_comm. f_equal; apply mulBlock_gf; auto; apply BO; lia. }
    assert (V4 : rd o4 j = if (j =? 0)%nat then N.lxor (rd o3 0) (rd M (len + i - 1)) else rd o3 j).
    { unfold o4. rewrite rd_upd, (K (len + i - 1)%nat) by lia. destruct j; cbn.
      - destruct (length o3) eqn:E; [lia|reflexivity].
      - reflexivity. }
    destruct j as [|[|j]].
    - cbn [Nat.eqb andb]. rewrite V4. cbn [Nat.eqb]. rewrite V3 by lia. reflexivity.
    - replace ((1 =? 1)%nat && (1 <? length o4)%nat) with true
        by (symmetry; apply andb_true_iff; split; [reflexivity|apply Nat.ltb_lt; lia]).
      rewrite V4. cbn [Nat.eqb]. rewrite V3 by lia. rewrite K by lia. reflexivity.
    - cbn [Nat.eqb andb]. rewrite V4. cbn [Nat.eqb]. rewrite V3 by lia. now rewrite N.lxor_0_r. }
  split; [exact LM1|]. split; [rewrite upd_length; exact Lo4|]. split; [exact K|]. split.
  - intros j Hj. rewrite V by exact Hj. 
    assert (Z0 : blk 0) by (unfold blk; now apply pow2_pos).
    apply lxor_blk; [apply lxor_blk|].
    + destruct (_ <=? _)%nat; auto. now apply gf_mul_blk.
    + destruct j; auto. now apply gf_mul_blk.
    + destruct j as [|[|j]]; auto.
  - rewrite <- pe_step by (auto; intros; apply BO; lia). apply pe_ext. intros j Hj. apply V. lia.
Qed.

Lemma recv_loop len oles h M0 : oles = (2 * len - 1)%nat -> (1 <= len)%nat -> length M0 = (128 * oles)%nat ->
  blk h -> (forall j, (j < 2 * oles)%nat -> blk (rd M0 j)) ->
  forall out0, (len + 1 <= length out0)%nat -> rd out0 0 = rd M0 0 -> rd out0 1 = rd M0 oles ->
  forall n, (n < len)%nat ->
  let (M, out) := fold_left (vope_step len oles) (seq 1 n) (M0, out0) in
  length M = length M0 /\ length out = length out0 /\
  (forall j, (j < 2 * oles)%nat -> rd M j = rd M0 j) /\
  (forall j, (j <= S n)%nat -> blk (rd out j)) /\
  pe h (S (S n)) (rd out) =
    fold_left (fun o i => N.lxor (gf_mul o (N.lxor (rd M0 i) (gf_mul h (rd M0 (oles + i)))))
                                 (N.lxor (rd M0 (len + i - 1)) (gf_mul h (rd M0 (oles + (len + i - 1))))))
      (seq 1 n) (N.lxor (rd M0 0) (gf_mul h (rd M0 oles))).
Proof.
  intros Ho H1 LM Hh BM out0 LO E0 E1. induction n as [|n IH]; intro Hn.
  - cbn [seq fold_left]. split; [reflexivity|]. split; [reflexivity|]. split; [auto|]. split.
    + intros j Hj. destruct j as [|[|j]]; [rewrite E0; apply BM; lia|rewrite E1; apply BM; lia|lia].
    + cbn [pe]. rewrite E0, E1, gf_mul_0_r, N.lxor_0_r. reflexivity.
  - rewrite seq_S, !fold_left_app. cbn [fold_left]. specialize (IH ltac:(lia)).
    destruct (fold_left (vope_step len oles) (seq 1 n) (M0, out0)) as [M out].
    destruct IH as (LM' & LO' & KM & BO & V).
    pose proof (step_ok len oles h (S n) M out (fun _ => 0) Ho ltac:(lia) ltac:(lia) ltac:(lia) ltac:(lia) Hh) as S1.
    change (1 + n)%nat with (S n).
    destruct (vope_step len oles (M, out) (S n)) as [M' out'].
    destruct S1 as (L1 & L2 & K1 & B1 & V1).
    + intros j Hj. rewrite KM by auto. apply BM. exact Hj.
    + exact BO.
    + split; [congruence|]. split; [congruence|]. split; [intros j Hj; rewrite K1, KM; auto|]. split; [exact B1|].
      rewrite V1, V, !KM by lia. reflexivity.
Qed.

(** ** the protocol *)
Lemma row_map2 (f : N -> bool -> N) K bits k : length K = length bits ->
  row k (map2 f K bits) = map2 f (row k K) (row k bits).
Proof.
  unfold row. generalize 128%nat (128 * k)%nat. intros n m L. revert K bits L m n.
  induction K as [|x K IH]; destruct bits as [|b bits]; intros L m n; try discriminate.
  - cbn [map2]. rewrite !skipn_nil, !firstn_nil. reflexivity.
  - destruct m as [|m]; cbn [skipn map2].
    + destruct n as [|n]; [reflexivity|]. cbn [firstn map2]. f_equal.
      pose proof (IH bits ltac:(cbn in L; lia) 0%nat n) as E. cbn [skipn] in E. exact E.
    + apply IH. cbn in L; lia.
Qed.
Lemma adjust_cot K : forall bits h Delta, length K = length bits ->
  vope_adjust (vope_cot K bits Delta) bits (N.lxor h Delta) =
  map2 (fun k (b : bool) => if b then N.lxor k h else k) K bits.
Proof.
  unfold vope_adjust, vope_cot.
  induction K as [|k K IH]; intros [|b bits] h Delta L; try discriminate; [reflexivity|].
  cbn [map2]. rewrite IH by (cbn in L; lia). f_equal. destruct b; [xor_solve|apply N.lxor_0_r].
Qed.
Lemma row_Forall (P : N -> Prop) K k : Forall P K -> Forall P (row k K).
Proof.
  intro F. apply Forall_forall. intros x Hx. rewrite Forall_forall in F. apply F.
  rewrite <- (firstn_skipn (128 * k) K). apply in_or_app. right.
  rewrite <- (firstn_skipn 128). apply in_or_app. left. exact Hx.
Qed.
Lemma row_length {A} (l : list A) k : (128 * k + 128 <= length l)%nat -> length (row k l) = 128%nat.
Proof. intro H. unfold row. rewrite firstn_length, skipn_length. lia. Qed.

(** contents of M after the first loop *)
Lemma packed len K bits h Delta : (1 <= len <= 64)%nat ->
  length K = (128 * (2 * len - 1))%nat -> length bits = (128 * (2 * len - 1))%nat -> blk h -> Forall blk K ->
  let oles := (2 * len - 1)%nat in
  let M0 := fold_left (vope_pack_step gf oles bits) (seq 0 oles) (vope_adjust (vope_cot K bits Delta) bits (N.lxor h Delta)) in
  length M0 = (128 * oles)%nat /\ (forall j, (j < 2 * oles)%nat -> blk (rd M0 j)) /\
  (forall k, (k < oles)%nat -> N.lxor (rd M0 k) (gf_mul h (rd M0 (oles + k))) = packing gf (row k K)).
Proof.
  intros Hl LK LB Hh FK. cbn zeta. rewrite adjust_cot by congruence.
  assert (Ho : (2 * len - 1 <= 127)%nat) by lia. revert LK LB Ho. generalize (2 * len - 1)%nat. intros oles LK LB Ho. clear Hl.
  set (A := map2 _ K bits).
  assert (LA : length A = (128 * oles)%nat) by (unfold A; rewrite map2_length; lia).
  pose proof (pack_loop oles bits A Ho LA oles ltac:(lia)) as PL. cbn zeta in PL.
  revert PL. generalize (fold_left (vope_pack_step gf oles bits) (seq 0 oles) A). intros M0 (LM0 & PM & _).
  assert (rowA : forall k, (k < oles)%nat ->
     rd M0 k = N.lxor (packing gf (row k K)) (gf_mul h (rd M0 (oles + k)))).
  { intros k Hk. destruct (PM k Hk) as [P1 P2]. rewrite P1, P2. unfold A. rewrite row_map2 by congruence.
    apply pack_corr; auto; apply row_length; lia. }
  assert (BU : forall k, (k < oles)%nat -> blk (rd M0 (oles + k))).
  { intros k Hk. destruct (PM k Hk) as [_ ->]. unfold bool_to_block, blk.
    pose proof (N_of_bits_lt (row k bits)) as B. rewrite row_length in B by lia. exact B. }
  split; [lia|]. split.
  - intros j Hj. destruct (Nat.lt_ge_cases j oles) as [L|G].
    + rewrite rowA by auto. apply lxor_blk; [apply packing_blk, row_Forall, FK|]. apply gf_mul_blk. now apply BU.
    + replace j with (oles + (j - oles))%nat by lia. apply BU. lia.
  - intros k Hk. rewrite rowA by auto. rewrite N.lxor_assoc, N.lxor_nilpotent. apply N.lxor_0_r.
Qed.

Lemma fold_left_ext_inv (P : N -> Prop) (f g : N -> nat -> N) l : forall o,
  (forall o i, In i l -> P o -> f o i = g o i /\ P (f o i)) -> P o -> fold_left f l o = fold_left g l o.
Proof.
  induction l as [|i l IH]; intros o H Ho; [reflexivity|]. cbn [fold_left].
  destruct (H o i (or_introl eq_refl) Ho) as [E Ho']. rewrite <- E. apply IH; [|exact Ho'].
  intros o' k Hk. apply H. now right.
Qed.
Lemma send_step o p1 p2 x1 x2 : blk o -> blk p1 -> x1 = p1 -> x2 = p2 -> 
  N.lxor (mulBlock o p1) p2 = N.lxor (gf_mul o x1) x2.
Proof. intros Ho Hp -> ->. now rewrite mulBlock_gf. Qed.
Lemma send_fold len oles h K M0 : oles = (2 * len - 1)%nat -> Forall blk K ->
  (forall k, (k < oles)%nat -> N.lxor (rd M0 k) (gf_mul h (rd M0 (oles + k))) = packing gf (row k K)) ->
  forall l o, (forall i, In i l -> (1 <= i < len)%nat) -> blk o ->
  fold_left (fun out i => N.lxor (mulBlock out (packing gf (row i K))) (packing gf (row (i + len - 1) K))) l o =
  fold_left (fun o i => N.lxor (gf_mul o (N.lxor (rd M0 i) (gf_mul h (rd M0 (oles + i)))))
                               (N.lxor (rd M0 (len + i - 1)) (gf_mul h (rd M0 (oles + (len + i - 1)))))) l o.
Proof.
  intros Ho FK XK l o In1 B0.
  assert (BP : forall k, blk (packing gf (row k K))) by (intro k; apply packing_blk, row_Forall, FK).
  apply (fold_left_ext_inv blk); [|exact B0].
  intros o' i Hi Bo. specialize (In1 i Hi). split.
  - apply send_step; auto.
    + apply XK. lia.
    + rewrite XK by lia. f_equal. f_equal. lia.
  - apply lxor_blk; [|apply BP]. rewrite (mulBlock_gf _ _ Bo (BP i)). apply gf_mul_blk, BP.
Qed.

Theorem vope_ok len out0 K bits h Delta : (1 <= len <= 64)%nat ->
  length K = (128 * (2 * len - 1))%nat -> length bits = (128 * (2 * len - 1))%nat ->
  (len + 1 <= length out0)%nat -> blk h -> Forall blk K ->
  exists o r, vope_run gf out0 len K bits h Delta = Ok (o, r) /\ length r = length out0 /\
    o = poly_eval h (firstn (len + 1) r).
Proof.
  intros Hl LK LB LO Hh FK.
  destruct (packed len K bits h Delta Hl LK LB Hh FK) as (LM0 & BM & XK).
  unfold vope_run, vope_send, vope_recv.
  destruct (Nat.eqb_spec len 0); [lia|]. cbn [bind].
  destruct (Nat.ltb_spec (length out0) (len + 1)); [lia|]. cbn [bind].
  revert LM0 BM XK.
  generalize (fold_left (vope_pack_step gf (2 * len - 1) bits) (seq 0 (2 * len - 1)) (vope_adjust (vope_cot K bits Delta) bits (N.lxor h Delta))).
  intros M0 LM0 BM XK.
  remember (2 * len - 1)%nat as oles eqn:Ho.
  set (o0 := upd 1 (rd M0 oles) (upd 0 (rd M0 0) out0)).
  pose proof (recv_loop len oles h M0 Ho ltac:(lia) LM0 Hh BM o0) as RL.
  assert (Lo : length o0 = length out0) by (unfold o0; rewrite !upd_length; reflexivity).
  specialize (RL ltac:(lia)).
  assert (R0 : rd o0 0 = rd M0 0) by (unfold o0; rewrite rd_upd_other, rd_upd_same by lia; reflexivity).
  assert (R1 : rd o0 1 = rd M0 oles) by (unfold o0; rewrite rd_upd_same by (rewrite upd_length; lia); reflexivity).
  specialize (RL R0 R1 (len - 1)%nat ltac:(lia)).
  destruct (fold_left (vope_step len oles) (seq 1 (len - 1)) (M0, o0)) as [M r].
  destruct RL as (LM & Lr & KM & BO & V). cbn [snd].
  eexists _, r. split; [reflexivity|]. split; [congruence|].
  pose proof (firstn_skipn_map r 0 (len + 1) ltac:(lia)) as EF. cbn [skipn] in EF. rewrite EF.
  rewrite <- pe_map. replace (len + 1)%nat with (S (S (len - 1))) by lia. rewrite V.
  pose proof (XK 0%nat ltac:(lia)) as X0. rewrite Nat.add_0_r in X0. rewrite X0.
  apply send_fold; auto.
  - intros i Hi. apply in_seq in Hi. lia.
  - apply packing_blk, row_Forall, FK.
Qed.
End P.


(** ** Length 65: the first write through U (line 40) lands in row 1 of M before that row
    is packed (line 39).  Contents of M after the first loop in that case. *)
Lemma pack_loop_65 gf oles bits M1 : (oles <= 254)%nat -> length M1 = (128 * oles)%nat ->
  forall n, (S n <= oles)%nat ->
  let M := fold_left (vope_pack_step gf oles bits) (seq 1 n) M1 in
  length M = length M1 /\
  (forall k, (1 <= k <= n)%nat -> rd M k = packing gf (row k M1) /\ rd M (oles + k) = bool_to_block (row k bits)) /\
  rd M 0 = rd M1 0 /\ rd M oles = rd M1 oles /\
  (forall j, (128 * S n <= j)%nat -> rd M j = rd M1 j).
Proof.
  intros Ho L. induction n as [|n IH]; intro Hn; cbn zeta.
  - cbn [seq fold_left]. split; [reflexivity|]. split; [intros; lia|auto].
  - rewrite seq_S, fold_left_app. cbn [fold_left]. change (1 + n)%nat with (S n).
    destruct (IH ltac:(lia)) as (L' & A & Z0 & Zo & B). set (M := fold_left _ _ _) in *. clearbody M.
    unfold vope_pack_step.
    assert (R : row (S n) M = row (S n) M1).
    { rewrite !row_map by lia. apply map_ext_in. intros j Hj. apply in_seq in Hj. apply B. lia. }
    rewrite R. split; [rewrite !upd_length; exact L'|]. split; [|split; [|split]].
    + intros k Hk. destruct (Nat.eq_dec k (S n)) as [->|Nk].
      * split; [rewrite rd_upd_other by lia; apply rd_upd_same; lia|].
        apply rd_upd_same. rewrite upd_length. lia.
      * destruct (A k ltac:(lia)) as [A1 A2]. rewrite !rd_upd_other by lia. auto.
    + rewrite !rd_upd_other by lia. exact Z0.
    + rewrite !rd_upd_other by lia. exact Zo.
    + intros j Hj. rewrite !rd_upd_other by lia. apply B. lia.
Qed.

(** witness: one-hot rows *)
Definition hot (k : nat) : bool := ((k =? 0) || ((2 <=? k) && (k <=? 64)))%nat.
Definition row_one : list N := repeat 0 127 ++ [gf_one].
Definition row_zero : list N := repeat 0 128.
Definition cex_row (k : nat) : list N := if hot k then row_one else row_zero.
Definition cex_K : list N := concat (map cex_row (seq 0 129)).
Definition cex_brow (k : nat) : list bool := if (k =? 0)%nat then true :: repeat false 127 else repeat false 128.
Definition cex_bits : list bool := concat (map cex_brow (seq 0 129)).
Lemma chunk_concat {A} (f : nat -> list A) c : (forall k, length (f k) = c) -> forall k n a, (k < n)%nat ->
  firstn c (skipn (c * k) (concat (map f (seq a n)))) = f (a + k)%nat.
Proof.
  intros L. induction k as [|k IH]; intros n a Hk; (destruct n as [|n]; [lia|]); cbn [seq map concat].
  - rewrite Nat.mul_0_r, Nat.add_0_r. cbn [skipn]. rewrite firstn_app, L, Nat.sub_diag, firstn_O, app_nil_r.
    apply firstn_all2. rewrite L. lia.
  - rewrite skipn_app, L. rewrite skipn_all2 by (rewrite L; lia). cbn [app].
    replace (c * S k - c)%nat with (c * k)%nat by lia. rewrite IH by lia. f_equal. lia.
Qed.
Lemma concat_len {A} (f : nat -> list A) c : (forall k, length (f k) = c) ->
  forall n a, length (concat (map f (seq a n))) = (n * c)%nat.
Proof. intros L. induction n; intro a; cbn [seq map concat]; [reflexivity|]. rewrite app_length, L, IHn. reflexivity. Qed.
Lemma cex_row_len k : length (cex_row k) = 128%nat.
Proof. unfold cex_row. destruct (hot k); reflexivity. Qed.
Lemma cex_brow_len k : length (cex_brow k) = 128%nat.
Proof. unfold cex_brow. destruct (k =? 0)%nat; reflexivity. Qed.
Lemma cex_K_row k : (k < 129)%nat -> row k cex_K = cex_row k.
Proof. intro H. apply (chunk_concat cex_row 128 cex_row_len k 129 0 H). Qed.
Lemma cex_bits_row k : (k < 129)%nat -> row k cex_bits = cex_brow k.
Proof. intro H. apply (chunk_concat cex_brow 128 cex_brow_len k 129 0 H). Qed.
Lemma cex_K_len : length cex_K = (128 * 129)%nat.
Proof. unfold cex_K. rewrite (concat_len _ 128 cex_row_len). reflexivity. Qed.
Lemma cex_bits_len : length cex_bits = (128 * 129)%nat.
Proof. unfold cex_bits. rewrite (concat_len _ 128 cex_brow_len). reflexivity. Qed.
Lemma cex_K_blk : Forall blk cex_K.
Proof.
  unfold cex_K. apply Forall_concat, Forall_forall. intros l Hl. apply in_map_iff in Hl as (k & <- & _).
  unfold cex_row. assert (Z0 : blk 0) by (unfold blk; now apply pow2_pos).
  destruct (hot k); unfold row_one, row_zero.
  - apply Forall_app. split; [apply Forall_forall; intros x Hx; now apply repeat_spec in Hx; subst|].
    constructor; [exact gf_one_blk|constructor].
  - apply Forall_forall. intros x Hx. now apply repeat_spec in Hx; subst.
Qed.
(** row 1 as the code sees it *)
Definition row_bad : list N := 0 :: 1 :: repeat 0 126.
Lemma pack_one : packing mulBlock row_one = gf_one.
Proof. vm_compute. reflexivity. Qed.
Lemma pack_zero : packing mulBlock row_zero = 0.
Proof. vm_compute. reflexivity. Qed.
Lemma pack_bad : packing mulBlock row_bad <> 0 /\ blk (packing mulBlock row_bad).
Proof. split; [vm_compute; discriminate|vm_compute; reflexivity]. Qed.
Lemma pack_first h : blk h -> packing mulBlock (h :: tl row_one) = N.lxor (gf_mul h 1) gf_one.
Proof.
  intro Hh. unfold packing, pack_base. change (seq 0 128) with (0%nat :: seq 1 127). cbn [map].
  rewrite inner_cons. change (N.shiftl 1 (N.of_nat 0)) with 1. rewrite mulBlock_gf by (auto; reflexivity).
  assert (E : inner_prod mulBlock (tl row_one) (map (fun j => N.shiftl 1 (N.of_nat j)) (seq 1 127)) = gf_one) by (vm_compute; reflexivity).
  now rewrite E.
Qed.

Lemma fold_id (f : N -> nat -> N) l : forall o, (forall i, In i l -> f o i = o) -> fold_left f l o = o.
Proof.
  induction l as [|i l IH]; intros o H; [reflexivity|]. cbn [fold_left]. rewrite (H i (or_introl eq_refl)).
  apply IH. intros k Hk. apply H. now right.
Qed.
Lemma step_id o m u m' u' h : blk o -> m = gf_one -> u = 0 -> m' = 0 -> u' = 0 ->
  N.lxor (gf_mul o (N.lxor m (gf_mul h u))) (N.lxor m' (gf_mul h u')) = o.
Proof. intros Ho -> -> -> ->. now rewrite !gf_mul_0_r, !N.lxor_0_r, gf_mul_1_r by exact Ho. Qed.
Lemma hot_in i : (2 <= i <= 64)%nat -> hot i = true.
Proof. intro H. unfold hot. destruct (Nat.leb_spec 2 i), (Nat.leb_spec i 64), (Nat.eqb_spec i 0); try lia; reflexivity. Qed.
Lemma hot_out i : (65 <= i)%nat -> hot i = false.
Proof. intro H. unfold hot. destruct (Nat.leb_spec i 64), (Nat.eqb_spec i 0); try lia; cbn [orb]; now rewrite ?andb_false_r. Qed.
Lemma fold_cons {A B} (f : A -> B -> A) x l a : fold_left f (x :: l) a = fold_left f l (f a x).
Proof. reflexivity. Qed.
Lemma map_zero (f : nat -> N) n : forall a, (forall j, (a <= j < a + n)%nat -> f j = 0) -> map f (seq a n) = repeat 0 n.
Proof. induction n as [|n IH]; intros a H; [reflexivity|]. cbn [seq map repeat]. rewrite H, IH; [reflexivity| |lia]. intros; apply H; lia. Qed.
Lemma row_zero_rd l k : (128 * k + 128 <= length l)%nat -> row k l = row_zero ->
  forall j, (128 * k <= j < 128 * k + 128)%nat -> rd l j = 0.
Proof.
  intros L E j Hj. rewrite row_map in E by exact L.
  apply (f_equal (fun m => nth (j - 128 * k) m 0)) in E. unfold row_zero in E.
  rewrite nth_repeat in E. rewrite (nth_indep _ 0 (rd l 0)) in E by (rewrite map_length, seq_length; lia).
  rewrite map_nth, seq_nth in E by lia. rewrite <- E. f_equal. lia.
Qed.
Lemma pack_step_eq gf oles bits M i : vope_pack_step gf oles bits M i =
  upd (oles + i) (bool_to_block (row i bits)) (upd i (packing gf (row i M)) M).
Proof. reflexivity. Qed.
Local Opaque cex_K cex_bits row vope_pack_step upd rd packing vope_step.
Lemma cex_sender : 
  fold_left (fun out i => N.lxor (mulBlock out (packing mulBlock (row i cex_K))) (packing mulBlock (row (i + 65 - 1) cex_K)))
    (seq 1 64) (packing mulBlock (row 0 cex_K)) = 0.
Proof.
  assert (S1 : seq 1 64 = 1%nat :: seq 2 63) by reflexivity. rewrite S1, fold_cons. clear S1.
  rewrite !(cex_K_row 0), !(cex_K_row 1), !(cex_K_row (1 + 65 - 1)) by lia.
  change (cex_row 0) with row_one. change (cex_row 1) with row_zero. change (cex_row (1 + 65 - 1)) with row_zero.
  rewrite pack_one, pack_zero.
  assert (E0 : N.lxor (mulBlock gf_one 0) 0 = 0) by (vm_compute; reflexivity). rewrite E0.
  assert (Zb : blk 0) by (unfold blk; now apply pow2_pos).
  apply fold_id. intros i Hi. apply in_seq in Hi. rewrite !cex_K_row by lia.
  replace (cex_row (i + 65 - 1)) with row_zero.
  - rewrite pack_zero.
    rewrite mulBlock_gf by (auto; unfold cex_row; destruct (hot i); rewrite ?pack_one, ?pack_zero; auto using gf_one_blk).
    now rewrite gf_mul_0_l, N.lxor_0_r.
  - unfold cex_row, hot. destruct (Nat.leb_spec (i + 65 - 1) 64), (Nat.eqb_spec (i + 65 - 1) 0); try lia.
    now rewrite andb_false_r.
Qed.
Theorem vope_65_refuted : exists K bits h Delta out0,
  length K = (128 * (2 * 65 - 1))%nat /\ length bits = (128 * (2 * 65 - 1))%nat /\ length out0 = 66%nat /\
  Forall blk K /\ blk h /\ blk Delta /\
  exists o r, vope_run mulBlock out0 65 K bits h Delta = Ok (o, r) /\ o <> poly_eval h (firstn (65 + 1) r).
Proof.
  exists cex_K, cex_bits, 2, 1, (repeat 0 66).
  split; [exact cex_K_len|]. split; [exact cex_bits_len|]. split; [reflexivity|]. split; [exact cex_K_blk|].
  assert (Hh : blk 2) by reflexivity. split; [exact Hh|]. split; [reflexivity|].
  unfold vope_run, vope_send, vope_recv. 
  replace (65 =? 0)%nat with false by reflexivity. cbn [bind].
  replace (length (repeat 0%N 66) <? 65 + 1)%nat with false by reflexivity. cbn [bind].
  replace (2 * 65 - 1)%nat with 129%nat by reflexivity.
  rewrite adjust_cot by (rewrite cex_K_len, cex_bits_len; reflexivity).
  set (A := map2 _ cex_K cex_bits).
  assert (LA : length A = (128 * 129)%nat) by (unfold A; rewrite map2_length, cex_K_len, cex_bits_len; lia).
  assert (S0 : seq 0 129 = 0%nat :: seq 1 128) by reflexivity. rewrite S0, fold_cons. clear S0.
  set (M1 := vope_pack_step mulBlock 129 cex_bits A 0).
  assert (EM1 : M1 = upd 129 1 (upd 0 (packing mulBlock (row 0 A)) A)).
  { unfold M1. rewrite pack_step_eq, Nat.add_0_r, cex_bits_row by lia. reflexivity. }
  clearbody M1.
  assert (LM1 : length M1 = (128 * 129)%nat) by (rewrite EM1, !upd_length; exact LA).
  assert (RA : forall k, (k < 129)%nat -> row k A = map2 (fun k (b : bool) => if b then N.lxor k 2 else k) (cex_row k) (cex_brow k)).
  { intros k Hk. unfold A. rewrite row_map2 by (rewrite cex_K_len, cex_bits_len; reflexivity).
    now rewrite cex_K_row, cex_bits_row by exact Hk. }
  clearbody A.
  assert (RM1 : forall k, (2 <= k < 129)%nat -> row k M1 = cex_row k).
  { intros k Hk. replace (cex_row k) with (row k A).
    - rewrite EM1, !row_map by (rewrite ?upd_length, LA; lia). apply map_ext_in. intros j Hj. apply in_seq in Hj.
      rewrite !rd_upd_other by lia. reflexivity.
    - rewrite RA by lia. unfold cex_brow. destruct (Nat.eqb_spec k 0); [lia|].
      unfold cex_row. destruct (hot k); reflexivity. }
  assert (RM1b : row 1 M1 = row_bad).
  { rewrite row_map by (rewrite LM1; lia). change (seq (128 * 1) 128) with (128%nat :: 129%nat :: seq 130 126).
    cbn [map]. unfold row_bad.
    assert (R1 : forall j, (128 <= j < 256)%nat -> rd A j = 0).
    { intros j Hj. apply (row_zero_rd A 1); [rewrite LA; lia|rewrite RA by lia; reflexivity|lia]. }
    rewrite EM1. f_equal; [rewrite !rd_upd_other by lia; apply R1; lia|]. f_equal.
    - apply rd_upd_same. rewrite upd_length, LA. lia.
    - apply map_zero. intros j Hj. rewrite !rd_upd_other by lia. apply R1; lia. }
  pose proof (pack_loop_65 mulBlock 129 cex_bits M1 ltac:(lia) LM1 128 ltac:(lia)) as PL. cbn zeta in PL.
  revert PL. generalize (fold_left (vope_pack_step mulBlock 129 cex_bits) (seq 1 128) M1). intros M0 (LM0 & PM & Z0 & Zo & _).
  assert (V0 : rd M0 0 = N.lxor (gf_mul 2 1) gf_one).
  { rewrite Z0, EM1, rd_upd_other, rd_upd_same by (rewrite ?LA; lia). rewrite RA by lia.
    rewrite <- (pack_first 2 Hh). f_equal. }
  assert (Vo : rd M0 129 = 1) by (rewrite Zo, EM1; apply rd_upd_same; rewrite upd_length, LA; lia).
  assert (VU : forall k, (1 <= k <= 128)%nat -> rd M0 (129 + k) = 0).
  { intros k Hk. destruct (PM k Hk) as [_ ->]. rewrite cex_bits_row by lia. unfold cex_brow.
    destruct (Nat.eqb_spec k 0); [lia|reflexivity]. }
  assert (V1 : rd M0 1 = packing mulBlock row_bad) by (destruct (PM 1%nat ltac:(lia)) as [P1 _]; rewrite P1, RM1b; exact eq_refl).
  assert (VK : forall k, (2 <= k <= 128)%nat -> rd M0 k = if hot k then gf_one else 0).
  { intros k Hk. destruct (PM k ltac:(lia)) as [-> _]. rewrite RM1 by lia. unfold cex_row.
    destruct (hot k); [apply pack_one|apply pack_zero]. }
  assert (Zb : blk 0) by (unfold blk; now apply pow2_pos).
  destruct pack_bad as [PB0 PBb].
  assert (BM : forall j, (j < 2 * 129)%nat -> blk (rd M0 j)).
  { intros j Hj. destruct (Nat.lt_ge_cases j 129) as [L|G].
    - destruct j as [|[|j]].
      + rewrite V0. apply lxor_blk; [apply gf_mul_blk; reflexivity|exact gf_one_blk].
      + change (blk (rd M0 1)). rewrite V1. exact PBb.
      + rewrite VK by lia. destruct (hot _); [exact gf_one_blk|exact Zb].
    - destruct (Nat.eq_dec j 129) as [->|Nj]; [rewrite Vo; reflexivity|].
      replace j with (129 + (j - 129))%nat by lia. rewrite VU by lia. exact Zb. }
  set (o0 := upd 1 (rd M0 129) (upd 0 (rd M0 0) (repeat 0 66))).
  pose proof (recv_loop 65 129 2 M0 eq_refl ltac:(lia) ltac:(lia) Hh BM o0) as RL.
  assert (Lo : length o0 = 66%nat) by (unfold o0; rewrite !upd_length; reflexivity).
  specialize (RL ltac:(lia)).
  assert (R0 : rd o0 0 = rd M0 0) by reflexivity. assert (R1 : rd o0 1 = rd M0 129) by reflexivity.
  clearbody o0.
  specialize (RL R0 R1 64%nat ltac:(lia)). change (65 - 1)%nat with 64%nat.
  destruct (fold_left (vope_step 65 129) (seq 1 64) (M0, o0)) as [M r].
  destruct RL as (LM & Lr & KM & BO & V). cbn [snd].
  rewrite cex_sender. eexists _, r. split; [reflexivity|].
  pose proof (firstn_skipn_map r 0 (65 + 1) ltac:(lia)) as EF. cbn [skipn] in EF. rewrite EF.
  rewrite <- pe_map. change (65 + 1)%nat with (S (S 64)). rewrite V.
  assert (S1 : seq 1 64 = 1%nat :: seq 2 63) by reflexivity. rewrite S1, fold_cons. clear S1.
  rewrite V0, Vo, V1. change (129 + 1)%nat with (129 + 1)%nat. rewrite (VU 1%nat) by lia.
  change (65 + 1 - 1)%nat with 65%nat. rewrite (VK 65%nat) by lia. rewrite (VU 65%nat) by lia.
  change (hot 65) with false. cbn iota.
  rewrite !gf_mul_0_r, !N.lxor_0_r.
  replace (N.lxor (N.lxor (gf_mul 2 1) gf_one) (gf_mul 2 1)) with gf_one by xor_solve.
  rewrite gf_mul_1_l by exact PBb.
  match goal with |- _ <> fold_left ?f ?l ?o => assert (FO : fold_left f l o = o) end.
  { apply fold_id. intros i Hi. apply in_seq in Hi. apply step_id; [exact PBb| | | |].
    - rewrite (VK i) by lia. rewrite (hot_in i) by lia. reflexivity.
    - apply VU. lia.
    - rewrite (VK (65 + i - 1)%nat) by lia. rewrite (hot_out (65 + i - 1)) by lia. reflexivity.
    - apply VU. lia. }
  rewrite FO. intro E. apply PB0. symmetry. exact E.
Qed.
