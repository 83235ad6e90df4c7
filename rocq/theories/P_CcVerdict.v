(** The verdicts of the conversion into commitments, whatever the peer sends. *)
From Coq Require Import List NArith ZArith Bool Arith Lia.
From Verif Require Import L_Bits L_Res L_Modq L_Group S_Sched S_Eat M_Utils M_Bn M_Ole M_Ec M_Commit M_ComConv M_Exch M_ExchCc.
From Verif Require Import S_Cmp P_Commit P_ComConv.
Import ListNotations.
Local Open Scope Z_scope.

Lemma eat_bind {A B} (p : proc A) (f : A -> proc B) : forall s,
  eat (pbind p f) s = match eat p s with Some (a, r) => eat (f a) r | None => None end.
Proof.
  induction p as [a|c bs p IH|c p IH|c n k IH]; intro s; cbn [pbind eat]; auto.
  destruct (length s <? n)%nat; [reflexivity|]. apply IH.
Qed.
Lemma eat_rbind {A B} (p : proc (res A)) (f : A -> proc (res B)) s b r :
  eat (rbind p f) s = Some (Ok b, r) -> exists a t, eat p s = Some (Ok a, t) /\ eat (f a) t = Some (Ok b, r).
Proof.
  unfold rbind. rewrite eat_bind. destruct (eat p s) as [[[a| |] t]|]; cbn; try discriminate. intro H. now exists a, t.
Qed.
Lemma eat_local {A} (x : res A) s a t : eat (local x) s = Some (Ok a, t) -> x = Ok a /\ t = s.
Proof. unfold local. cbn. intro H. split; congruence. Qed.
Lemma eat_recv {A} c n (k : list N -> proc A) s b r : eat (Recv c n k) s = Some (b, r) ->
  (n <= length s)%nat /\ eat (k (firstn n s)) (skipn n s) = Some (b, r).
Proof. cbn [eat]. destruct (Nat.ltb_spec (length s) n); [discriminate|]. intro H1. split; [lia|exact H1]. Qed.
Lemma eat_recv_bn c s x r : eat (p_recv_bn c) s = Some (Ok x, r) -> recv_bn s = Ok (x, r).
Proof.
  unfold p_recv_bn, recv_bn. cbn [eat]. destruct (length s <? 4)%nat; [discriminate|]. cbv zeta.
  destruct (_ <? _)%N; [discriminate|]. cbn [eat]. destruct (_ <? _)%nat; [discriminate|]. intro H. congruence.
Qed.

Lemma mapM_length {X Y} (f : X -> res Y) l : forall l', mapM f l = Ok l' -> length l' = length l.
Proof.
  induction l as [|x l IH]; intros l' H; cbn in H; [now inversion H|].
  destruct (f x) as [y| |]; cbn in H; try discriminate. destruct (mapM f l) as [t| |]; cbn in H; try discriminate.
  inversion H. subst. cbn. f_equal. now apply IH.
Qed.
Section CC.
Context {C : Curve}.
Notation point := (pt (cgrp C)).
Variable ccrh ccrh_o : N -> N.
Variable hash : list N -> list N.
Variable prg : N -> nat -> nat -> list N.
Variable h : point.
Variable q : Z.
Hypothesis hash_len : forall m, length (hash m) = DIGEST_SIZE.

Lemma eat_open com msg_com bMACs s b r : eat (p_cc_open ccrh hash q com msg_com bMACs) s = Some (Ok b, r) ->
  cc_open_recv ccrh hash q com msg_com bMACs s = Ok (b, r).
Proof.
  unfold p_cc_open, cc_open_recv. intro H.
  apply eat_recv in H as [L1 H]. apply eat_recv in H as [L2 H]. cbv zeta in H.
  apply eat_rbind in H as (aD & t1 & E1 & H). apply eat_recv_bn in E1.
  apply eat_rbind in H as (tc & t2 & E2 & H). apply eat_local in E2 as [E2 ->].
  apply eat_rbind in H as (r1 & t3 & E3 & H). apply eat_local in E3 as [E3 ->].
  unfold recv_data. destruct (Nat.ltb_spec (length s) 16); [lia|]. cbn [bind].
  destruct (Nat.ltb_spec (length (skipn 16 s)) 16); [lia|]. cbn [bind]. cbv zeta. rewrite E1. cbn [bind]. rewrite E2. cbn [bind]. rewrite E3. cbn [bind].
  destruct (existsb _ _); [discriminate|].
  apply eat_rbind in H as (r2 & t4 & E4 & H). apply eat_local in E4 as [E4 ->]. rewrite E4. cbn [bind].
  cbn [eat] in H. congruence.
Qed.

Lemma eat_send_bn c x s a r : eat (p_send_bn c x) s = Some (Ok a, r) -> r = s.
Proof. unfold p_send_bn. cbv zeta. destruct (_ <? _)%nat; cbn [eat]; congruence. Qed.
Lemma eat_send_bns c l : forall s a r, eat (p_send_bns c l) s = Some (Ok a, r) -> r = s.
Proof.
  induction l as [|x l IH]; intros s a r H; [cbn in H; congruence|]. cbn [p_send_bns] in H.
  apply eat_rbind in H as (u & t & E & H). apply eat_send_bn in E as ->. now apply IH in H.
Qed.
Lemma eat_send_points (Ps : list point) : forall buf s a r, eat (p_send_points buf Ps) s = Some (Ok a, r) -> r = s.
Proof.
  induction Ps as [|P Ps IH]; intros buf s a r H; cbn in H; [congruence|]. now apply IH in H.
Qed.

(** the holder of the MACs *)
Theorem recv_verdict bs r0 rnds rnd_r yseed buf0 sends Delta rows bMACs s coms b r :
  eat (p_cc_recv (C := C) ccrh ccrh_o hash prg h q bs r0 rnds rnd_r yseed buf0 sends Delta rows bMACs) s = Some (Ok (coms, b), r) ->
  exists rMAC s1 arrs s2 sb t1 db t2 aDelta,
    (DIGEST_SIZE <= length s)%nat /\
    eat (p_cc_ole ccrh_o q (negb sends) Delta rows r0) (skipn DIGEST_SIZE s) = Some (Ok rMAC, s1) /\
    eat (p_recv_arrs IO (length bMACs)) s1 = Some (Ok arrs, s2) /\
    recv_data 16 s2 = Ok (sb, t1) /\ recv_data 16 t1 = Ok (db, t2) /\ recv_bn t2 = Ok (aDelta, r) /\
    let arr := BN_bn2bin aDelta in
    let bDelta := block_of_bytes db in
    (b = true <->
     nul_equal DIGEST_SIZE (hash (bytes_of_block (block_of_bytes sb) ++ bytes_of_block bDelta ++ u32_bytes (N.of_nat (length arr)) ++ arr)) (firstn DIGEST_SIZE s) /\
     nul_equal DIGEST_SIZE (hash (flat_map (fun m => BN_bn2bin ((bn_H ccrh m q + bn_H ccrh (N.lxor m bDelta) q + aDelta) mod q)) bMACs)) (hash (concat arrs))).
Proof.
  unfold p_cc_recv. intro H. apply eat_rbind in H as ([[com' yMAC] v] & t & H1 & H2).
  unfold p_cc_recv_tail in H2. cbn [eat] in H2. apply eat_rbind in H2 as (u & t' & E & H2). apply eat_send_bn in E as ->. cbn [eat] in H2.
  assert (X : com' = coms /\ v = b /\ t = r) by (repeat split; congruence). destruct X as (-> & -> & ->). clear H2.
  unfold p_cc_recv_head in H1. destruct (negb _) in H1; [discriminate H1|].
  apply eat_recv in H1 as [L H1].
  apply eat_rbind in H1 as (rMAC & s1 & E1 & H1). apply eat_rbind in H1 as (arrs & s2 & E2 & H1). cbv zeta in H1.
  apply eat_rbind in H1 as (cl & t & E & H1). apply eat_local in E as [_ ->].
  apply eat_rbind in H1 as (msgs & t & E & H1). apply eat_local in E as [_ ->].
  apply eat_rbind in H1 as (macs & t & E & H1). apply eat_local in E as [_ ->].
  destruct (negb _) in H1; [discriminate H1|].
  apply eat_rbind in H1 as (u' & t & E & H1). apply eat_send_points in E as ->.
  apply eat_rbind in H1 as (rnd_y & t & E & H1). apply eat_local in E as [_ ->].
  apply eat_rbind in H1 as (msg_y & t & E & H1). apply eat_local in E as [_ ->].
  apply eat_rbind in H1 as (ycom & t & E & H1). apply eat_local in E as [_ ->]. cbn [eat] in H1.
  apply eat_rbind in H1 as (u1 & t & E & H1). apply eat_send_bn in E as ->.
  apply eat_rbind in H1 as (u2 & t & E & H1). apply eat_send_bn in E as ->.
  apply eat_rbind in H1 as (res & t & E & H1). cbn [eat] in H1.
  assert (X : res = b /\ t = r) by (split; congruence). destruct X as [-> ->].
  apply eat_open in E. apply open_recv_iff in E; [|exact hash_len|now rewrite firstn_length, Nat.min_l|apply hash_len].
  destruct E as (sb & t1 & db & t2 & aDelta & R1 & R2 & R3 & V).
  exists rMAC, s1, arrs, s2, sb, t1, db, t2, aDelta. repeat (split; [assumption|]). exact V.
Qed.

(** the holder of the keys *)
Theorem send_verdict bs seed bDelta aDelta sends Delta rows com0 bKEYs s coms b r : 0 < q ->
  eat (p_cc_send (C := C) ccrh ccrh_o hash prg h q bs seed bDelta aDelta sends Delta rows com0 bKEYs) s = Some (Ok (coms, b), r) ->
  exists com oa s1 keys Ps hs s2 rnd_y s3 msg_y s4 yMAC,
    cc_hash hash seed bDelta aDelta = Ok com /\
    eat (p_cc_ole ccrh_o q sends Delta rows aDelta) s = Some (Ok oa, s1) /\
    cc_batches q (map snd (cc_convert ccrh q bDelta aDelta bKEYs)) bs (length com0) = Ok keys /\
    eat (p_recv_points (com0 ++ [EC_POINT_new])) s1 = Some (Ok (Ps, hs), s2) /\ (DIGEST_SIZE <= length s2)%nat /\
    recv_bn (skipn DIGEST_SIZE s2) = Ok (rnd_y, s3) /\ recv_bn s3 = Ok (msg_y, s4) /\ (16 <= length s4)%nat /\
    recv_bn (skipn 16 s4) = Ok (yMAC, r) /\ coms = firstn (length com0) Ps /\
    let chi := cc_chi prg q (hash ((com ++ hash (bn_hashed (map fst (cc_convert ccrh q bDelta aDelta bKEYs)))) ++ hs)) (length com0) in
    (b = true <->
     lincomb (chi ++ [1]) Ps = padd (smul msg_y gen) (smul rnd_y h) /\
     firstn DIGEST_SIZE s2 = hash (bytes_of_block (block_of_bytes (firstn 16 s4)) ++ BN_bn2bin yMAC) /\
     yMAC = (dot chi keys + msg_y * aDelta - oa) mod q).
Proof.
  intros Q0. unfold p_cc_send. intro H. apply eat_rbind in H as (st & t & H1 & H2).
  unfold p_cc_send_head in H1. destruct (negb _) in H1; [discriminate H1|].
  apply eat_rbind in H1 as (com & t0 & E & H1). apply eat_local in E as [Ec ->]. cbn [eat] in H1.
  apply eat_rbind in H1 as (oa & s1 & Eo & H1). cbv zeta in H1.
  apply eat_rbind in H1 as (u & t0 & E & H1). apply eat_send_bns in E as ->.
  apply eat_rbind in H1 as (cl & t0 & E & H1). apply eat_local in E as [_ ->].
  apply eat_rbind in H1 as (keys & t0 & E & H1). apply eat_local in E as [Ek ->].
  destruct (Nat.eqb_spec (length com0) cl) as [<-|]; cbn [negb] in H1; [|discriminate].
  apply eat_rbind in H1 as ([Ps hs] & s2 & Ep & H1).
  set (chi := cc_chi _ _ _ _) in *.
  apply eat_rbind in H1 as (cy & t0 & E & H1). apply eat_local in E as [Ey ->].
  apply eat_recv in H1 as [L2 H1].
  apply eat_rbind in H1 as (rnd_y & s3 & E3 & H1). apply eat_recv_bn in E3.
  apply eat_rbind in H1 as (msg_y & s4 & E4 & H1). apply eat_recv_bn in E4. cbn [eat] in H1.
  apply eat_rbind in H1 as (u' & t0 & E & H1). apply eat_send_bn in E as ->. cbn [eat] in H1.
  assert (X : t = s4) by congruence. subst t.
  assert (X : st = (firstn (length com0) Ps, cc_lin q (q - oa) (combine chi keys), firstn DIGEST_SIZE s2, msg_y, pc_open_check h cy rnd_y msg_y)) by congruence.
  rewrite X in H2. clear H1 X. unfold p_cc_send_tail in H2.
  apply eat_recv in H2 as [L4 H2].
  apply eat_rbind in H2 as (yMAC & s5 & E5 & H2). apply eat_recv_bn in E5.
  apply eat_rbind in H2 as (yc & t0 & E & H2). apply eat_local in E as [Eyc ->].
  apply eat_rbind in H2 as (r2 & t0 & E & H2). apply eat_local in E as [Er2 ->]. cbv zeta in H2. cbn [eat] in H2.
  assert (X : firstn (length com0) Ps = coms /\ s5 = r /\ pc_open_check h cy rnd_y msg_y && r2 && (yMAC =? BN_mod_add (cc_lin q (q - oa) (combine chi keys)) (BN_mod_mul msg_y aDelta q) q) = b) by (repeat split; congruence).
  destruct X as (<- & -> & <-). clear H2.
  exists com, oa, s1, keys, Ps, hs, s2, rnd_y, s3, msg_y, s4, yMAC. repeat (split; [assumption|]). split; [reflexivity|].
  fold chi. rewrite !andb_true_iff.
  assert (LP : length Ps = length (chi ++ [1])).
  { unfold pc_linear_comb_com in Ey. destruct (Nat.eqb_spec (length Ps) (length (chi ++ [1]))); [assumption|discriminate]. }
  rewrite linear_com_ok in Ey by exact LP.
  assert (cy = lincomb (chi ++ [1]) Ps) as -> by congruence.
  rewrite pc_open_iff. unfold cc_ymac_com in Eyc. destruct (_ <? _)%nat in Eyc; [discriminate|].
  assert (yc = hash (bytes_of_block (block_of_bytes (firstn 16 s4)) ++ BN_bn2bin yMAC)) as -> by congruence.
  assert (R2 : r2 = true <-> firstn DIGEST_SIZE s2 = hash (bytes_of_block (block_of_bytes (firstn 16 s4)) ++ BN_bn2bin yMAC)).
  { rewrite <- (memcmp0_true DIGEST_SIZE) by (try apply hash_len; now rewrite firstn_length, Nat.min_l). rewrite Er2. split; congruence. }
  rewrite R2, Z.eqb_eq.
  assert (LK : length chi = length keys).
  { unfold cc_batches in Ek. apply mapM_length in Ek. rewrite seq_length in Ek. unfold chi, cc_chi. rewrite !map_length, seq_length. lia. }
  replace (BN_mod_add (cc_lin q (q - oa) (combine chi keys)) (BN_mod_mul msg_y aDelta q) q) with ((dot chi keys + msg_y * aDelta - oa) mod q); [tauto|].
  unfold BN_mod_add, BN_mod_mul. apply cong_iff; [lia|]. rewrite !mod_cong. rewrite lin_cong. rewrite combine_fst, combine_snd by lia.
  exists (-1). ring.
Qed.
End CC.
