(** Which runs of an AEAD session a party cannot tell apart. *)
From Coq Require Import List NArith Bool Arith Lia.
From Verif Require Import L_Bits L_Res L_Xor S_Sched S_View S_Codec S_Gcm M_EmpInteger M_Utils M_Bristol M_Block M_Ole2k M_Shares M_Commit M_Aead M_Exch M_View.
From Verif Require Import P_Utils P_Gf128 P_Shares P_Ole2k P_AesNet P_Gcm P_Aead P_Sched P_Exch P_ExchAead P_ExchSess P_View P_ViewAead.
Import ListNotations.
Local Open Scope N_scope.
Local Opaque mulBlock gf_mul invBlock computeKS computeAES_KS bytes_of_block block_of_bytes key_material.

(** * Changing the OT strings that were not chosen *)
Definition shift_row (sel : bool) (row : list N) (y d : N) : list N :=
  map2 (fun v (b : bool) => if Bool.eqb b sel then N.lxor v d else v) row (block_to_bool y).
Fixpoint shift_rows (sel : bool) (rows : list (list N)) (ys ds : list N) : list (list N) :=
  match rows, ys, ds with
  | row :: rows, y :: ys, d :: ds => shift_row sel row y d :: shift_rows sel rows ys ds
  | _, _, _ => []
  end.
Definition shift (r : ole_rand) (ys ds : list N) : ole_rand :=
  {| raw0 := shift_rows true (raw0 r) ys ds; raw1 := shift_rows false (raw1 r) ys ds |}.

Lemma btb_length y : length (block_to_bool y) = 128%nat.
Proof. apply bits_of_N_length. Qed.
Local Opaque block_to_bool.
Lemma shift_row_length sel row y d : length row = 128%nat -> length (shift_row sel row y d) = 128%nat.
Proof. intro L. unfold shift_row. rewrite map2_length, btb_length. lia. Qed.
Lemma map2_blk (f : N -> bool -> N) : (forall v b, blk v -> blk (f v b)) -> forall row bs, Forall blk row -> Forall blk (map2 f row bs).
Proof.
  intros Hf. induction row as [|v row IH]; intros [|b bs] F; cbn [map2]; try constructor; inversion F; subst; auto.
Qed.
Lemma shift_rows_ok sel : forall rows ys ds n, length rows = n -> length ys = n -> length ds = n ->
  Forall (fun x => length x = 128%nat) rows -> Forall (Forall blk) rows -> Forall blk ds ->
  length (shift_rows sel rows ys ds) = n /\ Forall (fun x => length x = 128%nat) (shift_rows sel rows ys ds) /\
  Forall (Forall blk) (shift_rows sel rows ys ds).
Proof.
  induction rows as [|row rows IH]; intros [|y ys] [|d ds] n L1 L2 L3 F1 F2 F3; subst; try discriminate; cbn [shift_rows length].
  - repeat split; constructor.
  - inversion F1; inversion F2; inversion F3; subst. cbn in L2, L3.
    destruct (IH ys ds (length rows) eq_refl ltac:(lia) ltac:(lia)) as (K1 & K2 & K3); try assumption.
    split; [now f_equal|]. split; constructor; try assumption.
    + now apply shift_row_length.
    + apply map2_blk; [|assumption]. intros v b Bv. destruct (Bool.eqb b sel); [now apply lxor_blk|exact Bv].
Qed.
Lemma shift_ok r ys ds n : ole_rand_ok r n -> ole_blk r -> length ys = n -> length ds = n -> Forall blk ds ->
  ole_rand_ok (shift r ys ds) n /\ ole_blk (shift r ys ds).
Proof.
  intros (R0 & R1 & F0 & F1) (B0 & B1) Ly Ld Bd.
  destruct (shift_rows_ok true (raw0 r) ys ds n R0 Ly Ld F0 B0 Bd) as (K1 & K2 & K3).
  destruct (shift_rows_ok false (raw1 r) ys ds n R1 Ly Ld F1 B1 Bd) as (K4 & K5 & K6).
  repeat split; assumption.
Qed.
Lemma shift_row_inv sel y d : forall row, length row = 128%nat -> shift_row sel (shift_row sel row y d) y d = row.
Proof.
  unfold shift_row. assert (L := btb_length y). revert L. generalize (block_to_bool y). intros bs L row L'.
  assert (E : length row = length bs) by congruence. clear L L'. revert bs E.
  induction row as [|v row IH]; intros [|b bs] E; try discriminate; [reflexivity|]. cbn [map2]. f_equal.
  - destruct (Bool.eqb b sel); [xor_solve|reflexivity].
  - apply IH. cbn in E. congruence.
Qed.
Lemma shift_rows_inv sel : forall rows ys ds, length rows = length ys -> length rows = length ds ->
  Forall (fun x => length x = 128%nat) rows -> shift_rows sel (shift_rows sel rows ys ds) ys ds = rows.
Proof.
  induction rows as [|row rows IH]; intros [|y ys] [|d ds] L1 L2 F; try discriminate; [reflexivity|].
  inversion F; subst. cbn [shift_rows]. rewrite shift_row_inv by assumption. f_equal. apply IH; try assumption; cbn in *; congruence.
Qed.
Lemma shift_inv r ys ds n : ole_rand_ok r n -> length ys = n -> length ds = n -> shift (shift r ys ds) ys ds = r.
Proof.
  intros (R0 & R1 & F0 & F1) Ly Ld. destruct r as [r0 r1]. unfold shift. cbn [raw0 raw1] in *.
  rewrite !shift_rows_inv by (assumption || congruence). reflexivity.
Qed.
Lemma shift_rots : forall r0 r1 ys ds, length r0 = length ys -> length r1 = length ys -> length ds = length ys ->
  Forall (fun x => length x = 128%nat) r0 -> Forall (fun x => length x = 128%nat) r1 ->
  rot_choose (shift_rows true r0 ys ds) (shift_rows false r1 ys ds) ys = rot_choose r0 r1 ys.
Proof.
  unfold rot_choose.
  induction r0 as [|a r0 IH]; intros [|b r1] [|y ys] [|d ds] L0 L1 Ld F0 F1; try discriminate; [reflexivity|].
  inversion F0; inversion F1; subst. cbn [shift_rows combine map fst snd]. f_equal; [|apply IH; try assumption; cbn in *; congruence].
  unfold shift_row. assert (L := btb_length y). revert L. generalize (block_to_bool y). intros bs L.
  assert (E1 : length a = length bs) by congruence. assert (E2 : length b = length bs) by congruence.
  clear -E1 E2. revert b bs E1 E2. induction a as [|u a IH]; intros [|v b] [|s bs] E1 E2; try discriminate; [reflexivity|].
  cbn [map2 combine map fst snd]. f_equal; [now destruct s|]. apply IH; cbn in *; congruence.
Qed.
Lemma shift_msgs : forall r0 r1 ys xs xs', length r0 = length ys -> length r1 = length ys -> length xs = length ys -> length xs' = length ys ->
  Forall (fun x => length x = 128%nat) r0 -> Forall (fun x => length x = 128%nat) r1 ->
  ole_send_msgs (shift_rows true r0 ys (map2 N.lxor xs xs')) (shift_rows false r1 ys (map2 N.lxor xs xs')) xs' = ole_send_msgs r0 r1 xs.
Proof.
  unfold ole_send_msgs.
  induction r0 as [|a r0 IH]; intros [|b r1] [|y ys] [|x xs] [|x' xs'] L0 L1 Lx Lx' F0 F1; try discriminate; [reflexivity|].
  inversion F0; inversion F1; subst. cbn [map2 shift_rows combine map fst snd]. f_equal; [|apply IH; try assumption; cbn in *; congruence].
  unfold shift_row. assert (L := btb_length y). revert L. generalize (block_to_bool y). intros bs L.
  assert (E1 : length a = length bs) by congruence. assert (E2 : length b = length bs) by congruence.
  clear -E1 E2. revert b bs E1 E2. induction a as [|u a IH]; intros [|v b] [|s bs] E1 E2; try discriminate; [reflexivity|].
  cbn [map2 combine map fst snd]. f_equal; [destruct s; cbn; xor_solve|]. apply IH; cbn in *; congruence.
Qed.

(** * Bits with given bytes *)
Definition ibits (l : list N) : list bool := rev (flat_map (fun b => rev (bits_of_N 8 b)) l).
Lemma ibits_length l : length (ibits l) = (8 * length l)%nat.
Proof. unfold ibits. rewrite rev_length, (flat_map_length_const _ 8); [reflexivity|]. intro. now rewrite rev_length, bits_of_N_length. Qed.
Lemma ibits_be l : bytes_ok l -> bytes_be (ibits l) = l.
Proof.
  intro F. unfold bytes_be, ibits. rewrite rev_involutive, chunks_flat_map by (try lia; intros; now rewrite rev_length, bits_of_N_length).
  rewrite map_map. induction F as [|x l H F IH]; [reflexivity|]. cbn [map]. rewrite IH. f_equal.
  unfold N_of_be. rewrite rev_involutive. now apply N_of_bits_of_N_small.
Qed.

(** * Arguments and random values *)
Definition in_aad (i : ain) : list N := match i with InEnc _ _ aad _ _ => aad | InDec _ _ aad _ _ _ _ => aad end.
Definition in_data (i : ain) : list N := match i with InEnc ma _ _ _ _ => ma | InDec c _ _ _ _ _ _ => c end.
Definition ain_ok (i : ain) : Prop :=
  match i with
  | InEnc ma mb aad iv sec => bytes_ok ma /\ bytes_ok aad /\ length iv = 8%nat /\ bytes_ok iv /\ (sec = false -> mb = ma)
  | InDec c t aad iv sec ra rb => bytes_ok c /\ bytes_ok aad /\ length iv = 8%nat /\ bytes_ok iv /\
      length ra = rand_length /\ length rb = rand_length
  end.
Definition call_ok (i : ain) (c : call_rand) : Prop := rand_ok c (in_aad i) (in_data i) /\ ole_blk (m_ole c).
Definition arand_ok (ins : list ain) (u : arand) : Prop :=
  length (ar_mh u) = 128%nat /\ blk (ar_r u) /\ ar_r u <> 0 /\ ole_rand_ok (ar_ro u) 1 /\ ole_blk (ar_ro u) /\
  Forall2 call_ok ins (ar_calls u).
Lemma with_rand_ok i c : ain_ok i -> call_ok i c -> aop_wf (with_rand i c) /\ aop_blk (with_rand i c).
Proof.
  intros A [R B]. destruct i; cbn [ain_ok in_aad in_data with_rand aop_wf aop_blk] in *.
  - destruct A as (H1 & H2 & H3 & H4 & H5). auto 10.
  - destruct A as (H1 & H2 & H3 & H4 & H5 & H6). auto 10.
Qed.
Lemma with_rands_ok : forall ins cs, Forall ain_ok ins -> Forall2 call_ok ins cs ->
  Forall aop_wf (map2 with_rand ins cs) /\ Forall aop_blk (map2 with_rand ins cs).
Proof.
  intros ins cs F G. induction G as [|i c ins cs H G IH]; [split; constructor|]. inversion F; subst.
  destruct (IH ltac:(assumption)) as [K1 K2]. destruct (with_rand_ok i c ltac:(assumption) H) as [W1 W2].
  cbn [map2]. split; constructor; assumption.
Qed.

(** calls that look the same to BOB, to ALICE *)
Definition alike_bob (E : N -> N) (fiv : list N) (E' : N -> N) (fiv' : list N) (i i' : ain) : Prop :=
  match i, i' with
  | InEnc ma mb aad iv sec, InEnc ma' mb' aad' iv' sec' =>
      mb' = mb /\ aad' = aad /\ iv' = iv /\ sec' = sec /\
      gcm_ae E' (fiv' ++ iv) ma' aad = gcm_ae E (fiv ++ iv) ma aad /\ (sec = false -> ma' = ma)
  | InDec c t aad iv sec ra rb, InDec c' t' aad' iv' sec' ra' rb' =>
      c' = c /\ t' = t /\ aad' = aad /\ iv' = iv /\ sec' = sec /\ ra' = ra /\ rb' = rb /\
      gcm_tag E' (fiv' ++ iv) aad c = gcm_tag E (fiv ++ iv) aad c /\
      (sec = false -> gcm_ctext E' (fiv' ++ iv) c = gcm_ctext E (fiv ++ iv) c)
  | _, _ => False
  end.

Definition alike_alice (E : N -> N) (fiv : list N) (E' : N -> N) (fiv' : list N) (i i' : ain) : Prop :=
  match i, i' with
  | InEnc ma mb aad iv sec, InEnc ma' mb' aad' iv' sec' =>
      ma' = ma /\ aad' = aad /\ iv' = iv /\ sec' = sec /\
      gcm_ae E' (fiv' ++ iv) ma aad = gcm_ae E (fiv ++ iv) ma aad
  | InDec c t aad iv sec ra rb, InDec c' t' aad' iv' sec' ra' rb' =>
      c' = c /\ t' = t /\ aad' = aad /\ iv' = iv /\ sec' = sec /\ ra' = ra /\ rb' = rb /\
      gcm_tag E' (fiv' ++ iv) aad c = gcm_tag E (fiv ++ iv) aad c /\
      gcm_ctext E' (fiv' ++ iv) c = gcm_ctext E (fiv ++ iv) c
  | _, _ => False
  end.

Lemma xor_cancel_l : forall a b c, length a = length b -> length a = length c -> xor_arr a b = xor_arr a c -> b = c.
Proof.
  unfold xor_arr. induction a as [|x a IH]; intros [|y b] [|z c] L1 L2 H; try discriminate; [reflexivity|].
  cbn [map2] in H. injection H as H1 H2. f_equal; [|apply IH; cbn in *; congruence].
  apply (f_equal (N.lxor x)) in H1. rewrite <- !N.lxor_assoc, N.lxor_nilpotent, !N.lxor_0_l in H1. exact H1.
Qed.
Lemma ks_of_text E fiv E' fiv' iv p sec : gcm_ctext E' (fiv' ++ iv) p = gcm_ctext E (fiv ++ iv) p ->
  call_ks E' fiv' (mk_call iv (length p) sec) = call_ks E fiv (mk_call iv (length p) sec).
Proof.
  intro H. rewrite <- (ctext_xor E' fiv' iv p sec), <- (ctext_xor E fiv iv p sec) in H.
  apply xor_cancel_l in H; [exact H|now rewrite call_ks_length|now rewrite call_ks_length].
Qed.
Lemma blk_bytes_inj x y : blk x -> blk y -> rev (bytes_of_block x) = rev (bytes_of_block y) -> x = y.
Proof.
  intros Bx By H. apply (f_equal (@rev N)) in H. rewrite !rev_involutive in H.
  rewrite <- (blk_round x Bx), <- (blk_round y By). now rewrite H.
Qed.
Lemma lxor_cancel_r x y z : N.lxor x z = N.lxor y z -> x = y.
Proof. intro H. apply (f_equal (fun w => N.lxor w z)) in H. rewrite !N.lxor_assoc, N.lxor_nilpotent, !N.lxor_0_r in H. exact H. Qed.

Section W.
Variable gfr : N -> N -> N.
Hypothesis GFR : gfr_ok gfr.
Variable hash : list N -> list N.

(** re-randomisation from one key to another *)
Section RE.
Variable E : N -> N.
Variable fiv : list N.
Variable E' : N -> N.
Variable fiv' : list N.
Definition re_r (r : N) : N := gf_mul (gf_mul r (E 0)) (invBlock (E' 0)).
Definition re_call (i i' : ain) (r : N) (c : call_rand) : call_rand :=
  let o := with_rand i c in let o' := with_rand i' c in
  {| m_z0 := bxor (m_z0 c) (bits_of_N 128 (N.lxor (E (j0_of (fiv ++ op_iv o))) (E' (j0_of (fiv' ++ op_iv o')))));
     m_z := bxor (m_z c) (ibits (xor_arr (op_ks E fiv o) (op_ks E' fiv' o')));
     m_ole := shift (m_ole c) (pows (gf_mul r (E 0)) (length (op_ins E fiv o)))
                (map2 N.lxor (sh_x (invBlock r) (op_ins E fiv o)) (sh_x (invBlock (re_r r)) (op_ins E' fiv' o'))) |}.
Definition re (ins ins' : list ain) (u : arand) : arand :=
  {| ar_mh := bxor (ar_mh u) (bits_of_N 128 (N.lxor (E 0) (E' 0)));
     ar_r := re_r (ar_r u);
     ar_ro := shift (ar_ro u) [new_hb E (ar_mh u)] [N.lxor (ar_r u) (re_r (ar_r u))];
     ar_calls := map2 (fun ii c => re_call (fst ii) (snd ii) (ar_r u) c) (combine ins ins') (ar_calls u) |}.
End RE.

Variable E : N -> N.
Variable fiv : list N.
Variable E' : N -> N.
Variable fiv' : list N.
Variable enc : bristol.
Variable ek ek' : Integer.
Hypothesis CIP : cipher_ok enc ek E.
Hypothesis CIP' : cipher_ok enc ek' E'.
Let BE : forall x, blk (E x) := proj2 CIP.
Let BE' : forall x, blk (E' x) := proj2 CIP'.
Hypothesis H0 : E 0 <> 0.
Hypothesis H0' : E' 0 <> 0.

Lemma re_r_ok r : blk r -> r <> 0 -> blk (re_r E E' r) /\ re_r E E' r <> 0 /\ gf_mul (re_r E E' r) (E' 0) = gf_mul r (E 0).
Proof.
  intros Br Nr. assert (Bi : blk (invBlock (E' 0))) by now apply invBlock_blk.
  assert (Bm : blk (gf_mul r (E 0))) by (apply gf_mul_blk; auto).
  assert (EQ : gf_mul (re_r E E' r) (E' 0) = gf_mul r (E 0)).
  { unfold re_r. rewrite <- (gf_mul_assoc _ _ _ Bm Bi (BE' 0)), (gf_mul_comm _ _ Bi (BE' 0)), invBlock_ok by auto. now apply gf_mul_1_r. }
  split; [now apply gf_mul_blk|]. split; [|exact EQ]. intro Z. rewrite Z, gf_mul_comm, gf_mul_0_r in EQ by (auto; reflexivity).
  symmetry in EQ. apply gf_no_zero_div in EQ as [|]; auto.
Qed.
Lemma re_r_inv r : blk r -> r <> 0 -> re_r E' E (re_r E E' r) = r.
Proof.
  intros Br Nr. unfold re_r at 1. destruct (re_r_ok r Br Nr) as (_ & _ & ->).
  assert (Bi : blk (invBlock (E 0))) by now apply invBlock_blk.
  rewrite <- (gf_mul_assoc _ _ _ Br (BE 0) Bi), invBlock_ok by auto. now apply gf_mul_1_r.
Qed.

(** the ciphertext, the lengths and the public arguments agree *)
Lemma alike_pub i i' c c' : alike_bob E fiv E' fiv' i i' ->
  let o := with_rand i c in let o' := with_rand i' c' in
  op_iv o' = op_iv o /\ op_sec o' = op_sec o /\ op_aad o' = op_aad o /\ op_ct E' fiv' o' = op_ct E fiv o /\
  gcm_tag E' (fiv' ++ op_iv o) (op_aad o) (op_ct E fiv o) = gcm_tag E (fiv ++ op_iv o) (op_aad o) (op_ct E fiv o) /\
  (op_sec o = false -> op_ks E' fiv' o' = op_ks E fiv o) /\
  out_bob (aop_spec E' fiv' o') = out_bob (aop_spec E fiv o) /\ in_aad i' = in_aad i /\ length (in_data i') = length (in_data i).
Proof.
  destruct i as [ma mb aad iv sec|ct t aad iv sec ra rb], i' as [ma' mb' aad' iv' sec'|ct' t' aad' iv' sec' ra' rb']; cbn [alike_bob]; try contradiction.
  - intros (-> & -> & -> & -> & EQ & P). cbn [with_rand op_iv op_sec op_aad op_ct aop_spec out_bob in_aad in_data].
    unfold gcm_ae in EQ. assert (E1 := f_equal fst EQ). assert (E2 := f_equal snd EQ). cbn [fst snd] in E1, E2.
    assert (L : length ma' = length ma). { apply (f_equal (@length N)) in E1. now rewrite !ctext_length in E1. }
    repeat (split; [reflexivity|]). split; [exact E1|]. split; [now rewrite E1 in E2|]. split.
    + intros ->. unfold op_ks. cbn [op_iv op_ct op_sec]. rewrite !ctext_length, L. rewrite (P eq_refl) in E1.
      rewrite <- L, (P eq_refl). now apply ks_of_text.
    + split; [now f_equal|]. split; [reflexivity|exact L].
  - intros (-> & -> & -> & -> & -> & -> & -> & EQ & P). cbn [with_rand op_iv op_sec op_aad op_ct aop_spec out_bob in_aad in_data].
    repeat (split; [reflexivity|]). split; [exact EQ|]. split.
    + intros ->. unfold op_ks. cbn [op_iv op_ct op_sec]. apply ks_of_text. now apply P.
    + split; [|now split]. rewrite EQ. destruct sec; [reflexivity|]. now rewrite P.
Qed.

Lemma op_rand_with i c : op_rand (with_rand i c) = c.
Proof. now destruct i. Qed.
Lemma indep F f i c c' : op_iv (with_rand i c') = op_iv (with_rand i c) /\ op_ks F f (with_rand i c') = op_ks F f (with_rand i c) /\
  op_ins F f (with_rand i c') = op_ins F f (with_rand i c) /\ op_ct F f (with_rand i c') = op_ct F f (with_rand i c).
Proof. now destruct i. Qed.
Lemma ct_length F f i c : length (op_ct F f (with_rand i c)) = length (in_data i).
Proof. destruct i; [apply ctext_length|reflexivity]. Qed.
Lemma ks_length F f i c : length (op_ks F f (with_rand i c)) = length (in_data i).
Proof. rewrite op_len. apply ct_length. Qed.
Lemma ks_bytes F f i c : bytes_ok (op_ks F f (with_rand i c)).
Proof. apply call_ks_bytes. Qed.
Lemma ins_length F f i c : length (op_ins F f (with_rand i c)) = nblocks (in_aad i) (in_data i).
Proof.
  unfold op_ins. rewrite tag_blocks_length. unfold nblocks. rewrite ct_length. now destruct i.
Qed.
Lemma xor_twice a b c : length a = length b -> length b = length c -> xor_arr (xor_arr a (xor_arr b c)) c = xor_arr a b.
Proof.
  unfold xor_arr. revert b c. induction a as [|x a IH]; intros [|y b] [|z c] L1 L2; try discriminate; [reflexivity|].
  cbn [map2]. f_equal; [xor_solve|]. apply IH; cbn in *; congruence.
Qed.

Lemma masked F f ma mb aad iv sec c : length (op_za (OpEnc ma mb aad iv sec c)) = length ma ->
  xor_arr ma (op_za (OpEnc ma mb aad iv sec c)) = xor_arr (op_ct F f (OpEnc ma mb aad iv sec c)) (op_zb F f (OpEnc ma mb aad iv sec c)).
Proof.
  intro L. unfold op_zb, op_ks. cbn [op_ct op_iv op_sec]. rewrite ctext_length, <- (ctext_xor F f iv ma sec).
  assert (Lk : length (call_ks F f (mk_call iv (length ma) sec)) = length ma) by apply call_ks_length. revert L Lk.
  generalize (op_za (OpEnc ma mb aad iv sec c)) (call_ks F f (mk_call iv (length ma) sec)). clear. unfold xor_arr.
  induction ma as [|x a IH]; intros [|y b] [|z c] L1 L2; try discriminate; [reflexivity|].
  cbn [map2]. f_equal; [xor_solve|]. apply IH; cbn in *; congruence.
Qed.

(** * One call, seen by BOB *)
Lemma re_call_ok i i' r c : alike_bob E fiv E' fiv' i i' -> blk r -> r <> 0 -> ain_ok i -> ain_ok i' -> call_ok i c ->
  let c' := re_call E fiv E' fiv' i i' r c in let r' := re_r E E' r in
  let o := with_rand i c in let o' := with_rand i' c' in
  let hb := gf_mul r (E 0) in let n := length (op_ins E fiv o) in
  call_ok i' c' /\ length (op_ins E' fiv' o') = n /\
  op_z0b E' fiv' o' = op_z0b E fiv o /\ op_zb E' fiv' o' = op_zb E fiv o /\
  sh_rots hb n (m_ole c') = sh_rots hb n (m_ole c) /\
  sh_msgs (invBlock r') (op_ins E' fiv' o') (m_ole c') = sh_msgs (invBlock r) (op_ins E fiv o) (m_ole c) /\
  op_A gfr hash E' fiv' (invBlock r') o' = op_A gfr hash E fiv (invBlock r) o.
Proof.
  intros AL Br Nr Ai Ai' CO c' r' o o' hb n. pose proof CO as [(Rz0 & Rz & Ro) Bo].
  destruct (re_r_ok r Br Nr) as (Br' & Nr' & Hr'). fold r' in Br', Nr', Hr'.
  destruct (alike_pub i i' c c' AL) as (P1 & P2 & P3 & P4 & P5 & P6 & P7 & P8 & P9). fold o o' in P1, P2, P3, P4, P5, P6, P7.
  destruct (with_rand_ok i c Ai CO) as [W BW]. fold o in W, BW.
  assert (Ei : op_ins E' fiv' o' = op_ins E fiv o) by (unfold op_ins; now rewrite P3, P4).
  assert (Ln : n = nblocks (in_aad i) (in_data i)) by apply ins_length.
  assert (Lx : forall h ins, length ins = n -> length (sh_x h ins) = n) by (intros; now rewrite sh_x_length).
  assert (Ei' : op_ins E' fiv' (with_rand i' c) = op_ins E fiv o) by (rewrite <- Ei; apply indep).
  assert (Ek' : op_ks E' fiv' (with_rand i' c) = op_ks E' fiv' o') by apply indep.
  assert (Ev' : op_iv (with_rand i' c) = op_iv o) by (rewrite <- P1; now destruct i').
  set (d := map2 N.lxor (sh_x (invBlock r) (op_ins E fiv o)) (sh_x (invBlock r') (op_ins E fiv o))).
  assert (Eo : m_ole c' = shift (m_ole c) (pows hb n) d).
  { unfold c', re_call. cbn [m_ole]. fold o. fold r'. rewrite Ei'. reflexivity. }
  assert (Ld : length d = n) by (unfold d; rewrite map2_length, !Lx by reflexivity; lia).
  assert (Bd : Forall blk d).
  { unfold d. assert (B1 := sh_x_blk (invBlock r) (op_ins E fiv o) (invBlock_blk _ Br)). assert (B2 := sh_x_blk (invBlock r') (op_ins E fiv o) (invBlock_blk _ Br')).
    revert B1 B2. generalize (sh_x (invBlock r) (op_ins E fiv o)) (sh_x (invBlock r') (op_ins E fiv o)). clear.
    induction l as [|x l IH]; intros [|y m] B1 B2; cbn [map2]; try constructor; inversion B1; inversion B2; subst; [now apply lxor_blk|now apply IH]. }
  rewrite <- Ln in Ro. pose proof Ro as (R0 & R1 & F0 & F1).
  assert (Lks : length (op_ks E fiv o) = length (in_data i)) by apply ks_length.
  assert (Lks' : length (op_ks E' fiv' o') = length (in_data i)) by (unfold o'; rewrite ks_length; exact P9).
  assert (Bks : bytes_ok (xor_arr (op_ks E fiv o) (op_ks E' fiv' o'))) by (apply xor_arr_bytes; apply ks_bytes).
  assert (Lib : length (ibits (xor_arr (op_ks E fiv o) (op_ks E' fiv' o'))) = (8 * length (in_data i))%nat).
  { rewrite ibits_length. unfold xor_arr. rewrite map2_length, Lks, Lks', Nat.min_id. reflexivity. }
  assert (CO' : call_ok i' c').
  { destruct (shift_ok (m_ole c) (pows hb n) d n Ro Bo (pows_length _ _) Ld Bd) as [S1 S2]. rewrite <- Eo in S1, S2.
    split; [|exact S2]. split; [|split].
    - unfold c', re_call. cbn [m_z0]. rewrite bxor_length; rewrite ?bits_of_N_length; assumption || congruence.
    - unfold c', re_call. cbn [m_z]. fold o. rewrite Ek'. rewrite bxor_length; congruence.
    - unfold nblocks in *. rewrite P8, P9, <- Ln. exact S1. }
  assert (EZ0 : op_z0b E' fiv' o' = op_z0b E fiv o).
  { unfold op_z0b, op_z0a, o, o'. rewrite !op_rand_with. fold o o'. rewrite P1. unfold c', re_call. cbn [m_z0]. fold o. rewrite Ev'.
    rewrite N_of_bits_bxor by (rewrite bits_of_N_length; congruence). rewrite N_of_bits_of_N_small by (apply lxor_blk; auto).
    generalize (N_of_bits (m_z0 c)) (E (j0_of (fiv ++ op_iv o))) (E' (j0_of (fiv' ++ op_iv o))). clear. intros. xor_solve. }
  assert (EZ : op_zb E' fiv' o' = op_zb E fiv o).
  { unfold op_zb, op_za, o, o'. rewrite !op_rand_with. fold o o'. unfold c', re_call. cbn [m_z]. fold o. rewrite Ek'.
    rewrite (bytes_be_bxor _ _ (length (in_data i))) by assumption. rewrite ibits_be by exact Bks.
    apply xor_twice; [rewrite (bytes_be_length _ _ Rz)|]; congruence. }
  assert (ER : sh_rots hb n (m_ole c') = sh_rots hb n (m_ole c)).
  { unfold sh_rots. rewrite Eo. cbn [shift raw0 raw1]. apply shift_rots; rewrite ?pows_length; assumption. }
  assert (EM : sh_msgs (invBlock r') (op_ins E' fiv' o') (m_ole c') = sh_msgs (invBlock r) (op_ins E fiv o) (m_ole c)).
  { unfold sh_msgs. rewrite Eo, Ei. cbn [shift raw0 raw1]. apply shift_msgs; rewrite ?pows_length, ?Lx by reflexivity; try assumption; reflexivity. }
  split; [exact CO'|]. split; [now rewrite Ei|]. split; [exact EZ0|]. split; [exact EZ|]. split; [exact ER|]. split; [exact EM|].
  (* the tag shares *)
  destruct (with_rand_ok i' c' Ai' CO') as [W' BW']. fold o' in W', BW'.
  assert (Bh : blk hb) by (apply gf_mul_blk; auto).
  assert (OR : op_rand o = c) by apply op_rand_with. assert (OR' : op_rand o' = c') by apply op_rand_with.
  assert (Inv : forall x, blk x -> x <> 0 -> forall h, blk h -> gf_mul (invBlock x) (gf_mul x h) = h).
  { intros x Bx Nx h Bh'. rewrite (gf_mul_assoc _ _ _ (invBlock_blk x Bx) Bx Bh'), (gf_mul_comm _ _ (invBlock_blk x Bx) Bx), invBlock_ok by assumption.
    now apply gf_mul_1_l. }
  assert (EOB : op_outb gfr E' fiv' (invBlock r') hb o' = op_outb gfr E fiv (invBlock r) hb o).
  { unfold op_outb. cbv zeta. rewrite EZ0. rewrite OR, OR', EM, Ei. fold n. now rewrite ER. }
  assert (TG := tag_shares enc gfr GFR ek E CIP fiv (invBlock r) hb o (invBlock_blk _ Br) Bh (Inv r Br Nr _ (BE 0)) W BW).
  assert (TG' := tag_shares enc gfr GFR ek' E' CIP' fiv' (invBlock r') hb o' (invBlock_blk _ Br') Bh).
  assert (HH : gf_mul (invBlock r') hb = E' 0) by (unfold hb; rewrite <- Hr'; now apply Inv).
  specialize (TG' HH W' BW').
  destruct TG as (X1 & X2 & X3), TG' as (X1' & X2' & X3').
  assert (EOA : op_outa gfr o' = op_outa gfr o).
  { rewrite EOB in X3'. rewrite P1, P3, P4, P5, <- X3 in X3'. apply blk_bytes_inj in X3'; [|now apply lxor_blk..].
    now apply lxor_cancel_r in X3'. }
  unfold op_A. rewrite EOA, OR, OR', EM.
  assert (LZ : length (op_za o) = length (in_data i)) by (unfold op_za; rewrite OR; now apply bytes_be_length).
  assert (LZ' : length (op_za o') = length (in_data i')) by (unfold op_za; rewrite OR'; apply bytes_be_length, CO').
  clearbody c'. clear -AL EZ P4 LZ LZ'.
  destruct i as [ma mb aad iv sec|ct t aad iv sec ra rb], i' as [ma' mb' aad' iv' sec'|ct' t' aad' iv' sec' ra' rb']; cbn [alike_bob] in AL; try contradiction.
  - destruct AL as (_ & _ & _ & -> & _). unfold o, o' in *. cbn [with_rand] in *. f_equal. f_equal. destruct sec; [|reflexivity].
    rewrite (masked E fiv _ _ _ _ _ _ LZ), (masked E' fiv' _ _ _ _ _ _ LZ'), EZ. now rewrite P4.
  - destruct AL as (_ & _ & _ & _ & _ & -> & _). reflexivity.
Qed.

Lemma map2_lxor_comm : forall a b, map2 N.lxor a b = map2 N.lxor b a.
Proof. induction a as [|x a IH]; intros [|y b]; cbn [map2]; [reflexivity..|]. now rewrite N.lxor_comm, IH. Qed.
Lemma alike_ins i i' c c' : alike_bob E fiv E' fiv' i i' -> op_ins E' fiv' (with_rand i' c') = op_ins E fiv (with_rand i c).
Proof. intro AL. destruct (alike_pub i i' c c' AL) as (_ & _ & P3 & P4 & _). unfold op_ins. now rewrite P3, P4. Qed.
Lemma re_call_inv i i' r c : alike_bob E fiv E' fiv' i i' -> blk r -> r <> 0 -> call_ok i c ->
  re_call E' fiv' E fiv i' i (re_r E E' r) (re_call E fiv E' fiv' i i' r c) = c.
Proof.
  intros AL Br Nr [(Rz0 & Rz & Ro) Bo]. set (c' := re_call E fiv E' fiv' i i' r c).
  destruct (re_r_ok r Br Nr) as (Br' & Nr' & Hr').
  destruct (alike_pub i i' c c' AL) as (_ & _ & _ & _ & _ & _ & _ & _ & P9).
  unfold re_call at 1. rewrite Hr', (re_r_inv r Br Nr).
  destruct (indep E fiv i c' c) as (I1 & I2 & I3 & I4). destruct (indep E' fiv' i' c' c) as (J1 & J2 & J3 & J4).
  rewrite <- I1, <- I2, <- I3, <- J1, <- J2, <- J3. unfold c', re_call. cbn [m_z0 m_z m_ole].
  rewrite (N.lxor_comm (E' _) (E _)), (xor_arr_comm (op_ks E' fiv' (with_rand i' c)) (op_ks E fiv (with_rand i c))).
  assert (Ln := ins_length E fiv i c).
  rewrite (alike_ins i i' c c AL). rewrite (map2_lxor_comm (sh_x (invBlock (re_r E E' r)) _) _).
  rewrite bxor_cancel by (now rewrite bits_of_N_length).
  rewrite bxor_cancel.
  2:{ rewrite ibits_length. unfold xor_arr. rewrite map2_length, !ks_length, P9, Nat.min_id. exact Rz. }
  rewrite (shift_inv _ _ _ _ Ro); [now destruct c|now rewrite pows_length|].
  rewrite map2_length, !sh_x_length, Nat.min_id. exact Ln.
Qed.
Lemma new_hb_re u : length (ar_mh u) = 128%nat -> new_hb E' (bxor (ar_mh u) (bits_of_N 128 (N.lxor (E 0) (E' 0)))) = new_hb E (ar_mh u).
Proof.
  intro L. unfold new_hb. rewrite N_of_bits_bxor by (now rewrite bits_of_N_length).
  rewrite N_of_bits_of_N_small by (apply lxor_blk; auto). generalize (N_of_bits (ar_mh u)) (E 0) (E' 0). clear. intros. xor_solve.
Qed.
End W.
