(** The conversion of bits into commitments against a peer that sends any bytes. *)
From Coq Require Import List NArith ZArith Bool Arith Lia Znumtheory.
From Verif Require Import L_Bits L_Res S_Sched S_Feed S_Codec L_Group S_Ec M_Bn M_Ec M_Ole M_E2f M_Utils M_EmpInteger M_Commit M_ComConv M_Exch M_ExchCc.
From Verif Require Import P_Utils P_Bn P_Ole P_E2f P_Sched P_Exch P_Commit P_ComConv P_ExchCc P_CcVerdict P_Feed.
Import ListNotations.
Local Open Scope Z_scope.

Definition bytes_in (ins : list (list N)) : Prop := Forall (Forall (fun b => (b < 256)%N)) ins.
(** as [sf], for real bytes *)
Definition sb {A} (p : proc (res A)) (Q : res A -> Prop) : Prop :=
  forall ins r, fed p ins r -> bytes_in ins -> (r = UB /\ exists pre h, ins = pre ++ [h] /\ oversized h) \/ Q r.
Lemma sb_sf {A} (p : proc (res A)) Q : sf p Q -> sb p Q.
Proof. intros H ins r F _. exact (H _ _ F). Qed.
Lemma sb_ret {A} (r : res A) (Q : res A -> Prop) : Q r -> sb (Ret r) Q.
Proof. intro H. apply sb_sf, sf_ret, H. Qed.
Lemma sb_send {A} c l (p : proc (res A)) Q : sb p Q -> sb (Send c l p) Q.
Proof. intros H ins r F B. inversion F; subst. eauto. Qed.
Lemma sb_recv {A} c n (k : list N -> proc (res A)) Q : (forall bs, length bs = n -> Forall (fun b => (b < 256)%N) bs -> sb (k bs) Q) -> sb (Recv c n k) Q.
Proof.
  intros H ins r F B. inversion F; subst. apply Forall_cons_iff in B as [B1 B2].
  destruct (H bs eq_refl B1 _ _ ltac:(eassumption) B2) as [(-> & pre & h & -> & O)|K]; [|now right].
  left. split; [reflexivity|]. exists (bs :: pre), h. auto.
Qed.
Lemma sb_mono {A} (p : proc (res A)) (Q R : res A -> Prop) : (forall r, Q r -> R r) -> sb p Q -> sb p R.
Proof. intros M H ins r F B. destruct (H _ _ F B); auto. Qed.
Lemma sb_rbind {A B} (p : proc (res A)) (f : A -> proc (res B)) Q :
  sb p (fun r => match r with Ok a => sb (f a) Q | Err => Q Err | UB => Q UB end) -> sb (rbind p f) Q.
Proof.
  intros H ins r F BI. destruct (fed_bind _ _ _ _ F) as (i1 & a & i2 & -> & F1 & F2). apply Forall_app in BI as [BI1 BI2].
  destruct (H _ _ F1 BI1) as [(-> & pre & h & -> & O)|K].
  - inversion F2; subst. left. split; [reflexivity|]. exists pre, h. rewrite app_nil_r. auto.
  - destruct a as [a| |]; [|inversion F2; subst; now right..].
    destruct (K _ _ F2 BI2) as [(-> & pre & h & -> & O)|K2]; [|now right].
    left. split; [reflexivity|]. exists (i1 ++ pre), h. rewrite app_assoc. auto.
Qed.
Lemma sb_step {A B} (p : proc (res A)) (f : A -> proc (res B)) (V : A -> Prop) Q :
  sb p (fun r => exists a, r = Ok a /\ V a) -> (forall a, V a -> sb (f a) Q) -> sb (rbind p f) Q.
Proof. intros H K. apply sb_rbind. eapply sb_mono; [|exact H]. intros r (a & -> & Va). auto. Qed.
Lemma sb_local {A B} (x : res A) a (f : A -> proc (res B)) Q : x = Ok a -> sb (f a) Q -> sb (rbind (local x) f) Q.
Proof. intros -> H. exact H. Qed.
(** a computation whose failure is an error *)
Lemma sb_noub {A B} (x : res A) (f : A -> proc (res B)) (Q : res B -> Prop) : x <> UB -> Q Err -> (forall a, x = Ok a -> sb (f a) Q) -> sb (rbind (local x) f) Q.
Proof. intros N E H. destruct x as [a| |]; [exact (H a eq_refl)|now apply sb_ret|congruence]. Qed.

Lemma bin_fits arr : Forall (fun b => (b < 256)%N) arr -> (length arr <= bn_buf)%nat -> P_Exch.fits (BN_bin2bn arr).
Proof.
  intros F L. unfold P_Exch.fits. rewrite bin2bn_val. rewrite Zabs2N.id. eapply N.lt_le_trans; [apply be_val_lt, F|].
  apply N.pow_le_mono_r; lia.
Qed.
Lemma sb_recv_bn c : sb (p_recv_bn c) (fun r => exists z, r = Ok z /\ P_Exch.fits z).
Proof.
  intros ins r F BI. destruct (sf_recv_bn c ins r F) as [K|(z & -> & _)]; [now left|right].
  unfold p_recv_bn in F. inversion F as [| | |? ? ? bs ? ? L F']; subst. clear F. cbv zeta in F'.
  apply Forall_cons_iff in BI as [_ BI].
  change (N.of_nat bn_buf) with 1000%N in F'. destruct (1000 <? u32_value bs)%N eqn:E; [inversion F'|].
  inversion F' as [| | |? ? ? arr ? ? L2 F2]; subst. inversion F2; subst. exists (BN_bin2bn arr). split; [reflexivity|].
  apply bin_fits; [now apply Forall_inv in BI|]. rewrite L2. apply N.ltb_ge in E. change bn_buf with (N.to_nat 1000). lia.
Qed.
Lemma sb_recv_arrs c n : sb (p_recv_arrs c n) (fun r => exists l, r = Ok l /\ length l = n).
Proof.
  apply sb_sf. induction n as [|n IH]; cbn [p_recv_arrs]; [apply sf_ret; eauto|].
  eapply sf_step with (V := fun _ => True).
  - intros ins r F. unfold p_recv_arr in F. inversion F as [| | |? ? ? bs ? ? L F']; subst. clear F. cbv zeta in F'. change (N.of_nat bn_buf) with 1000%N in F'.
    destruct (1000 <? u32_value bs)%N eqn:E.
    + inversion F'; subst. left. split; [reflexivity|]. exists [], bs. split; [reflexivity|].
      destruct bs as [|a [|b [|c' [|d [|? ?]]]]]; try discriminate. exists a, b, c', d. split; [reflexivity|].
      apply N.ltb_lt in E. unfold u32_value in E. cbn [fold_right] in E. lia.
    + inversion F' as [| | |? ? ? ? ? ? L2 F2]; subst. inversion F2; subst. right. eauto.
  - intros x _. eapply sf_step; [exact IH|]. intros l L. apply sf_ret. exists (x :: l). cbn. auto.
Qed.
Lemma fits_small x : P_Exch.fits x -> (bn_buf <? length (BN_bn2bin x))%nat = false.
Proof. intro F. rewrite bn2bin_length. apply Nat.ltb_ge, num_bytes_least, F. Qed.
Lemma sb_send_bn c x : P_Exch.fits x -> sb (p_send_bn c x) (fun r => exists u, r = Ok u /\ True).
Proof. intro F. unfold p_send_bn. cbv zeta. rewrite fits_small by exact F. apply sb_send, sb_send, sb_ret. eauto. Qed.

Lemma memcmp0_total n : forall a b, length a = n -> length b = n -> exists r, memcmp0 n a b = Ok r.
Proof.
  induction n as [|n IH]; intros [|x a] [|y b] La Lb; try discriminate; cbn [memcmp0]; [eauto|].
  destruct (IH a b ltac:(now injection La) ltac:(now injection Lb)) as [r ->]. cbn. eauto.
Qed.
Lemma mapM_total {X Y} (f : X -> res Y) l : (forall x, In x l -> exists y, f x = Ok y) -> exists r, mapM f l = Ok r.
Proof.
  induction l as [|x l IH]; intro H; cbn [mapM]; [eauto|]. destruct (H x (or_introl eq_refl)) as [y ->].
  destruct IH as [r ->]; [intros; apply H; now right|]. cbn. eauto.
Qed.
Section Q.
Variable q : Z.
Hypothesis Hq : bound1000 q.
Lemma num_bits_pow' : q < 2 ^ Z.of_nat (BN_num_bits q).
Proof.
  unfold BN_num_bits. rewrite N_nat_Z. assert (H : 0 < q) by (destruct Hq; lia).
  replace q with (Z.of_N (Z.abs_N q)) at 1 by (rewrite N2Z.inj_abs_N; lia).
  assert (S : (Z.abs_N q < 2 ^ N.size (Z.abs_N q))%N).
  { destruct (N.eq_dec (Z.abs_N q) 0) as [E|N]; [rewrite E; reflexivity|].
    rewrite N.size_log2 by auto. apply N.log2_spec. lia. }
  apply N2Z.inj_lt in S. now rewrite N2Z.inj_pow in S.
Qed.
Lemma bs_bits' bs : 2 ^ Z.of_nat bs - 1 < q -> (bs <= BN_num_bits q)%nat.
Proof.
  intro H. destruct (le_lt_dec bs (BN_num_bits q)) as [L|L]; [exact L|exfalso].
  pose proof num_bits_pow' as P.
  assert (2 ^ Z.of_nat (BN_num_bits q) <= 2 ^ Z.of_nat (bs - 1)) by (apply Z.pow_le_mono_r; lia).
  assert (E : 2 ^ Z.of_nat bs = 2 * 2 ^ Z.of_nat (bs - 1)).
  { rewrite <- Z.pow_succ_r by lia. f_equal. lia. }
  lia.
Qed.
Lemma batch_total vals base : forall js acc, (forall j, In j js -> (j < BN_num_bits q)%nat /\ (base + j < length vals)%nat) -> exists z, cc_batch q vals base js acc = Ok z.
Proof.
  induction js as [|j js IH]; intros acc H; cbn [cc_batch]; [eauto|]. destruct (H j (or_introl eq_refl)) as [H1 H2].
  rewrite exp_nth by exact H1. cbn [read bind]. destruct (nth_error vals (base + j)) as [v|] eqn:E; [|apply nth_error_None in E; lia]. cbn [read bind].
  apply IH. intros; apply H. now right.
Qed.
Lemma msg_total bMACs base : forall js acc, (forall j, In j js -> (j < BN_num_bits q)%nat /\ (base + j < length bMACs)%nat) -> exists z, cc_msg q bMACs base js acc = Ok z.
Proof.
  induction js as [|j js IH]; intros acc H; cbn [cc_msg]; [eauto|]. destruct (H j (or_introl eq_refl)) as [H1 H2].
  rewrite exp_nth by exact H1. cbn [read bind]. destruct (nth_error bMACs (base + j)) as [v|] eqn:E; [|apply nth_error_None in E; lia]. cbn [read bind].
  apply IH. intros; apply H. now right.
Qed.
Lemma range_in n bs i j : (bs <= BN_num_bits q)%nat -> In j (cc_range n bs i) -> (j < BN_num_bits q)%nat /\ (i * bs + j < n)%nat.
Proof. intros B H. unfold cc_range in H. apply in_seq in H. lia. Qed.
Lemma batches_total vals bs cl : cc_size_ok q bs = true -> exists r, cc_batches q vals bs cl = Ok r /\ length r = cl.
Proof.
  intro HZ. apply Z.ltb_lt in HZ. apply bs_bits' in HZ. unfold cc_batches.
  destruct (mapM_total (fun i => cc_batch q vals (i * bs) (cc_range (length vals) bs i) 0) (seq 0 cl)) as [r E].
  { intros i _. apply batch_total. intros j. apply range_in, HZ. }
  exists r. split; [exact E|]. apply mapM_length in E. now rewrite seq_length in E.
Qed.
Lemma msgs_total bMACs bs cl : cc_size_ok q bs = true -> exists r, cc_msgs q bMACs bs cl = Ok r /\ length r = cl.
Proof.
  intro HZ. apply Z.ltb_lt in HZ. apply bs_bits' in HZ. unfold cc_msgs.
  destruct (mapM_total (fun i => cc_msg q bMACs (i * bs) (cc_range (length bMACs) bs i) 0) (seq 0 cl)) as [r E].
  { intros i _. apply msg_total. intros j. apply range_in, HZ. }
  exists r. split; [exact E|]. apply mapM_length in E. now rewrite seq_length in E.
Qed.
Variable ccrh ccrh_o : N -> N.
Lemma ole_send_out Delta x : forall l out o ms, 0 <= out < q -> ole_send_loop ccrh_o q Delta x l out = (o, ms) -> 0 <= o < q.
Proof.
  induction l as [|[e raw] l IH]; intros out o ms R H; cbn [ole_send_loop] in H.
  - now injection H as <- <-.
  - destruct (ole_send_loop ccrh_o q Delta x l _) as [o' ms'] eqn:E. assert (X : o = o') by congruence. rewrite X. eapply IH; [|exact E]. apply (in_q q Hq).
Qed.
Lemma sf_loop_range : forall l o, 0 <= o < q -> sf (p_ole_recv_loop ccrh_o q l o) (fun r => exists z, r = Ok z /\ 0 <= z < q).
Proof.
  induction l as [|[e [row b]] l IH]; intros o R; cbn [p_ole_recv_loop]; [apply sf_ret; eauto|].
  eapply sf_step; [apply sf_recv_bn|]. intros z _. apply IH, (in_q q Hq).
Qed.
Lemma sb_cc_ole sends Delta rows x : length rows = 1%nat -> sb (p_cc_ole ccrh_o q sends Delta rows x) (fun r => exists z, r = Ok z /\ 0 <= z < q).
Proof.
  intro L. destruct rows as [|row [|? ?]]; try discriminate. apply sb_sf. unfold p_cc_ole.
  assert (Q0 : 0 <= 0 < q) by (destruct Hq; lia).
  eapply sf_step with (V := fun l => exists z, l = [z] /\ 0 <= z < q); [|intros l (z & -> & R); apply sf_ret; cbn; eauto].
  destruct sends; cbn [p_ole_send p_ole_recv].
  - destruct (ole_send_loop ccrh_o q Delta x _ 0) as [o ms] eqn:E.
    eapply sf_step; [apply sf_send_bns; eapply (inq_fits q Hq), (ole_send_loop_inq ccrh_o q Hq), E|]. intros _ _. apply sf_flush, sf_ret.
    eexists. split; [reflexivity|]. exists o. split; [reflexivity|]. eapply ole_send_out; [exact Q0|exact E].
  - eapply sf_step; [apply sf_loop_range, Q0|]. intros o R. apply sf_ret. eauto.
Qed.
End Q.
Section S.
Variable C : Curve.
Notation point := (pt (cgrp C)).
Variables (ccrh ccrh_o : N -> N) (hash : list N -> list N) (prg : N -> nat -> nat -> list N) (h : point) (q : Z).
Hypothesis Hq : bound1000 q.
Hypothesis Ho : bound1000 (order (cgrp C)).
Hypothesis HL : forall m, length (hash m) = DIGEST_SIZE.
Lemma chi_len d n : length (cc_chi prg q d n) = n.
Proof. unfold cc_chi. now rewrite map_length, seq_length. Qed.
Lemma convert_fits bDelta aDelta ks : Forall P_Exch.fits (map fst (cc_convert ccrh q bDelta aDelta ks)).
Proof.
  apply (inq_fits q Hq). unfold cc_convert. rewrite map_map. apply Forall_forall. intros x Hx. apply in_map_iff in Hx as (k & <- & _). now apply convert_range.
Qed.
Lemma sb_recv_points : forall old, sb (@p_recv_points C old) (fun r => exists x, r = Ok x /\ length (fst x) = length old).
Proof.
  induction old as [|P old IH]; cbn [p_recv_points]; [apply sb_ret; eexists; split; reflexivity|].
  apply sb_recv. intros bs _ _. cbv zeta. eapply sb_step; [exact IH|]. intros [Ps hs] L. apply sb_ret. eexists. split; [reflexivity|]. cbn in *. now rewrite L.
Qed.
Lemma cc_send_safe bs seed bDelta aDelta sends Delta rows com0 bKEYs : (0 < bs)%nat -> length rows = 1%nat -> 0 <= aDelta < q ->
  length com0 = ((length bKEYs + bs - 1) / bs)%nat ->
  sb (p_cc_send (C := C) ccrh ccrh_o hash prg h q bs seed bDelta aDelta sends Delta rows com0 bKEYs) (fun r => r <> UB).
Proof.
  intros B L R Lc. unfold p_cc_send. eapply sb_rbind.
  eapply sb_mono with (Q := fun r => r = Err \/ exists cm yK yc my rs, r = Ok (cm, yK, yc, my, rs) /\ length yc = DIGEST_SIZE).
  2:{ unfold p_cc_send_head. destruct (cc_size_ok q bs) eqn:Z0; cbn [negb]; [|apply sb_ret; now left].
    assert (FA : P_Exch.fits aDelta) by (apply (bound_fits q); assumption).
    eapply sb_local; [unfold cc_hash; cbv zeta; rewrite fits_small by exact FA; reflexivity|]. apply sb_send.
    eapply sb_step; [apply (sb_cc_ole q Hq ccrh_o), L|]. intros oa _. cbv zeta.
    eapply sb_step; [apply sb_sf, sf_send_bns, convert_fits|]. intros _ _.
    eapply sb_local; [unfold cc_chunk_len; destruct (Nat.eqb_spec bs 0); [lia|reflexivity]|].
    destruct (batches_total q Hq (map snd (cc_convert ccrh q bDelta aDelta bKEYs)) bs ((length bKEYs + bs - 1) / bs) Z0) as (keys & EK & LK).
    eapply sb_local; [exact EK|]. rewrite Lc, Nat.eqb_refl. cbn [negb].
    eapply sb_step; [apply sb_recv_points|]. intros [Ps hs] LP.
    apply sb_noub; [unfold pc_linear_comb_com; destruct (negb _); discriminate|now left|]. intros com_y _.
    apply sb_recv. intros ycom Ly _. eapply sb_step; [apply sb_recv_bn|]. intros rnd_y _. eapply sb_step; [apply sb_recv_bn|]. intros msg_y _.
    apply sb_send, sb_send. eapply sb_step; [apply sb_send_bn, FA|]. intros _ _. apply sb_ret. right. do 5 eexists. split; [reflexivity|exact Ly]. }
  intros r [-> |(cm & yK & yc & my & rs & -> & Ly)]; [discriminate|]. unfold p_cc_send_tail.
  apply sb_recv. intros s1 _ _. eapply sb_step; [apply sb_recv_bn|]. intros yMAC FY.
  eapply sb_local; [unfold cc_ymac_com; cbv zeta; rewrite fits_small by exact FY; reflexivity|].
  destruct (memcmp0_total DIGEST_SIZE yc (hash (bytes_of_block (block_of_bytes s1) ++ BN_bn2bin yMAC)) Ly (HL _)) as [m Em].
  eapply sb_local; [exact Em|]. apply sb_ret. discriminate.
Qed.
Lemma rand_fits l : forall r, P_Exch.fits r -> P_Exch.fits (@pc_rand_loop C r l).
Proof.
  induction l as [|[x k] l IH]; intros r F; cbn [pc_rand_loop]; [exact F|]. apply IH. apply (bound_fits (order (cgrp C))); [exact Ho|]. apply (in_q _ Ho).
Qed.
Lemma sb_send_points : forall Ps buf, sb (@p_send_points C buf Ps) (fun r => exists u, r = Ok u /\ True).
Proof. induction Ps as [|P Ps IH]; intro buf; cbn [p_send_points]; [apply sb_ret; eauto|]. cbv zeta. apply sb_send, IH. Qed.
Lemma sb_open com msg_com bMACs : length com = DIGEST_SIZE -> length msg_com = DIGEST_SIZE -> sb (p_cc_open ccrh hash q com msg_com bMACs) (fun r => exists b, r = Ok b /\ True).
Proof.
  intros L1 L2. unfold p_cc_open. apply sb_recv. intros s1 _ _. apply sb_recv. intros s2 _ _. cbv zeta.
  eapply sb_step; [apply sb_recv_bn|]. intros aD FA.
  eapply sb_local; [unfold cc_hash; cbv zeta; rewrite fits_small by exact FA; reflexivity|].
  match goal with |- sb (rbind (local (strncmp0 _ ?a _)) _) _ => destruct (strncmp0_total DIGEST_SIZE a com (HL _) L1) as [r1 R1] end.
  eapply sb_local; [exact R1|].
  match goal with |- context [existsb ?f ?l] => replace (existsb f l) with false end.
  - match goal with |- sb (rbind (local (strncmp0 _ ?a _)) _) _ => destruct (strncmp0_total DIGEST_SIZE a msg_com (HL _) L2) as [r2 R2] end.
    eapply sb_local; [exact R2|]. apply sb_ret. eauto.
  - symmetry. apply not_true_is_false. intro E. apply existsb_exists in E as (m & Im & Em).
    pose proof (proj1 (Forall_forall _ _) (convert_fits (block_of_bytes s2) aD (map (fun b => if getLSB b then N.lxor b (block_of_bytes s2) else b) bMACs)) m Im) as Fm.
    cbv beta in Em. rewrite fits_small in Em by exact Fm. discriminate.
Qed.
Lemma cc_recv_safe bs r0 rnds rnd_r yseed buf0 sends Delta rows bMACs : (0 < bs)%nat -> length rows = 1%nat ->
  length rnds = ((length bMACs + bs - 1) / bs)%nat ->
  sb (p_cc_recv (C := C) ccrh ccrh_o hash prg h q bs r0 rnds rnd_r yseed buf0 sends Delta rows bMACs) (fun r => r <> UB).
Proof.
  intros B L Lr. unfold p_cc_recv. eapply sb_rbind.
  eapply sb_mono with (Q := fun r => r = Err \/ exists cm yM rs, r = Ok (cm, yM, rs) /\ P_Exch.fits yM).
  2:{ unfold p_cc_recv_head. destruct (cc_size_ok q bs) eqn:Z0; cbn [negb]; [|apply sb_ret; now left].
    apply sb_recv. intros com Lc _. eapply sb_step; [apply (sb_cc_ole q Hq ccrh_o), L|]. intros rMAC RM.
    eapply sb_step; [apply sb_recv_arrs|]. intros arrs LA. cbv zeta.
    eapply sb_local; [unfold cc_chunk_len; destruct (Nat.eqb_spec bs 0); [lia|reflexivity]|].
    destruct (msgs_total q Hq bMACs bs ((length bMACs + bs - 1) / bs) Z0) as (msgs & Em & Lm). eapply sb_local; [exact Em|].
    destruct (batches_total q Hq (map2 (cc_mac ccrh q) bMACs (map BN_bin2bn arrs)) bs ((length bMACs + bs - 1) / bs) Z0) as (macs & Ec & Lmc). eapply sb_local; [exact Ec|].
    rewrite Lr, Nat.eqb_refl. cbn [negb]. eapply sb_step; [apply sb_send_points|]. intros _ _.
    apply sb_noub; [unfold pc_linear_comb_rand; destruct (negb _); discriminate|now left|]. intros rnd_y E1.
    apply sb_noub; [unfold pc_linear_comb_rand; destruct (negb _); discriminate|now left|]. intros msg_y E2.
    assert (F0 : P_Exch.fits 0) by (apply (bound_fits q); [exact Hq|destruct Hq; lia]).
    assert (FR : forall a b z, @pc_linear_comb_rand C a b = Ok z -> P_Exch.fits z).
    { intros a b z E. unfold pc_linear_comb_rand in E. destruct (negb _); [discriminate|]. injection E as <-. now apply rand_fits. }
    match goal with |- context [cc_ymac_com hash yseed ?y] => assert (FY : P_Exch.fits y) by (apply (bound_fits q); [exact Hq|apply (lin_range q Hq), RM]) end.
    eapply sb_local; [unfold cc_ymac_com; cbv zeta; rewrite fits_small by exact FY; reflexivity|]. apply sb_send.
    eapply sb_step; [apply sb_send_bn, (FR _ _ _ E1)|]. intros _ _. eapply sb_step; [apply sb_send_bn, (FR _ _ _ E2)|]. intros _ _.
    eapply sb_step; [apply sb_open; [exact Lc|apply HL]|]. intros res _. apply sb_ret. right. do 3 eexists. split; [reflexivity|exact FY]. }
  intros r [-> |(cm & yM & rs & -> & FY)]; [discriminate|]. unfold p_cc_recv_tail. apply sb_send. eapply sb_step; [apply sb_send_bn, FY|]. intros _ _. apply sb_ret. discriminate.
Qed.
End S.
(** the statements *)
Theorem cc_only (C : Curve) ccrh ccrh_o hash prg (h : pt (cgrp C)) q : bound1000 q -> bound1000 (order (cgrp C)) -> (forall m, length (hash m) = DIGEST_SIZE) ->
  forall bs sends Delta rows ins, (0 < bs)%nat -> length rows = 1%nat -> Forall (Forall (fun b => (b < 256)%N)) ins ->
  (forall seed bDelta aDelta com0 bKEYs, 0 <= aDelta < q -> length com0 = ((length bKEYs + bs - 1) / bs)%nat ->
     fed (p_cc_send (C := C) ccrh ccrh_o hash prg h q bs seed bDelta aDelta sends Delta rows com0 bKEYs) ins UB -> exists pre h, ins = pre ++ [h] /\ oversized h) /\
  (forall r0 rnds rnd_r yseed buf0 bMACs, length rnds = ((length bMACs + bs - 1) / bs)%nat ->
     fed (p_cc_recv (C := C) ccrh ccrh_o hash prg h q bs r0 rnds rnd_r yseed buf0 sends Delta rows bMACs) ins UB -> exists pre h, ins = pre ++ [h] /\ oversized h).
Proof.
  intros Hq Ho HL bs sends Delta rows ins B L BI. split.
  - intros seed bDelta aDelta com0 bKEYs R Lc F.
    destruct (cc_send_safe C ccrh ccrh_o hash prg h q Hq HL bs seed bDelta aDelta sends Delta rows com0 bKEYs B L R Lc ins UB F BI) as [[_ K]|K]; [exact K|congruence].
  - intros r0 rnds rnd_r yseed buf0 bMACs Lr F.
    destruct (cc_recv_safe C ccrh ccrh_o hash prg h q Hq Ho HL bs r0 rnds rnd_r yseed buf0 sends Delta rows bMACs B L Lr ins UB F BI) as [[_ K]|K]; [exact K|congruence].
Qed.
Lemma over_ole ccrh q Delta row x h : bound1000 q -> length row = BN_num_bits q -> oversized h -> fed (p_cc_ole ccrh q false Delta [row] x) [h] UB.
Proof.
  intros Hq L O. unfold p_cc_ole. apply fed_ub. cbn [p_ole_recv]. apply fed_ub. pose proof (num_bits_pow' q Hq) as P.
  destruct (BN_num_bits q) as [|n]; [cbn in P; destruct Hq; lia|]. destruct row as [|w row]; [discriminate|].
  unfold ole_exp, ole_bits. cbn [seq map combine p_ole_recv_loop]. apply fed_ub, fed_over, O.
Qed.
Theorem cc_over (C : Curve) ccrh ccrh_o hash prg (h : pt (cgrp C)) q : bound1000 q ->
  forall bs Delta row hd, cc_size_ok q bs = true -> length row = BN_num_bits q -> oversized hd ->
  (forall seed bDelta aDelta com0 bKEYs, 0 <= aDelta < q ->
     fed (p_cc_send (C := C) ccrh ccrh_o hash prg h q bs seed bDelta aDelta false Delta [row] com0 bKEYs) [hd] UB) /\
  (forall r0 rnds rnd_r yseed buf0 bMACs com, length com = DIGEST_SIZE ->
     fed (p_cc_recv (C := C) ccrh ccrh_o hash prg h q bs r0 rnds rnd_r yseed buf0 true Delta [row] bMACs) [com; hd] UB).
Proof.
  intros Hq bs Delta row hd Z0 L O. split.
  - intros seed bDelta aDelta com0 bKEYs R. unfold p_cc_send. apply fed_ub. unfold p_cc_send_head. rewrite Z0. cbn [negb].
    unfold cc_hash. cbv zeta. rewrite fits_small by (apply (bound_fits q); assumption). change [hd] with ([] ++ [hd]).
    eapply fed_ok; [constructor|]. constructor. apply fed_ub. now apply over_ole.
  - intros r0 rnds rnd_r yseed buf0 bMACs com Lc. unfold p_cc_recv. apply fed_ub. unfold p_cc_recv_head. rewrite Z0. cbn [negb].
    constructor; [exact Lc|]. apply fed_ub. now apply over_ole.
Qed.
