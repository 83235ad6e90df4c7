(** The key agreement as part of a longer run: the flags when a channel may be unflushed before it, and
    the range of the shares for any bytes received. *)
From Coq Require Import List NArith ZArith Bool Arith Lia Znumtheory.
From Verif Require Import L_Bits L_Res S_Sched L_Group S_Ec M_Bn M_Ec M_Ole M_E2f M_Exch M_ExchDh.
From Verif Require Import P_Bn P_Dh P_Ole P_E2f P_Sched P_Exch P_ExchDh.
Import ListNotations.
Local Open Scope Z_scope.

Section Q.
Variable ccrh : N -> N.
Variable q : Z.
Hypothesis Hq : bound1000 q.
Lemma wp_ole_send_dirty bl Delta ins raw d (Q : res (list Z) -> flags -> Prop) : ins <> [] -> length raw = length ins -> snd d = false ->
  (forall r, Q r (false, false)) -> wp (p_ole_send ccrh q bl Delta raw ins) d Q.
Proof.
  intros NE L D H. destruct ins as [|x ins]; [congruence|]. destruct raw as [|row raw]; [discriminate|]. cbn [p_ole_send].
  destruct (ole_send_loop ccrh q Delta x (combine (ole_exp q bl) row) 0) as [o ms] eqn:E.
  apply wp_rbind, wp_send_bns; [eapply (inq_fits q Hq), (ole_send_loop_inq ccrh q Hq), E|]. intros d' D'. cbn [wp].
  replace (fset d' IO false) with (false, false) by (destruct d', d; cbn in *; now subst).
  apply wp_rbind, (wp_ole_send ccrh q Hq). intros [os| |]; cbn; apply H.
Qed.
Lemma wp_offline_send bl r Delta raw d (Q : res e2f -> flags -> Prop) : length raw = 5%nat -> snd d = false ->
  (forall r, Q r (false, false)) -> wp (p_e2f_offline ccrh q bl true r Delta raw) d Q.
Proof.
  intros L D H. unfold p_e2f_offline. apply wp_rbind, wp_ole_send_dirty; [discriminate|exact L|exact D|]. intros [o| |]; apply H.
Qed.
Lemma out_range alice s e x : 0 <= e2f_out q alice s e x < q.
Proof. unfold e2f_out. cbv zeta. apply (in_q q Hq). Qed.
(** the shares lie in the field, whatever is received *)
Lemma wp_online_range alice s x y d (Q : res Z -> flags -> Prop) : (alice = false /\ snd d = false) \/ d = (false, false) ->
  (forall r, (forall z, r = Ok z -> 0 <= z < q) -> Q r (false, false)) -> wp (p_e2f_online q alice s x y) d Q.
Proof.
  intros D H. assert (HE : Q Err (false, false)) by (apply H; discriminate). assert (HU : Q UB (false, false)) by (apply H; discriminate).
  unfold p_e2f_online.
  assert (F : Forall (fun x => 0 <= x < q) (e2f_eps q alice s x y)) by (repeat constructor; apply (in_q q Hq)).
  assert (G : forall e, wp (match e with Ok e => rbind (p_open q alice [e2f_w q s (nth 0 e 0%Z)]) (fun w =>
    rbind (local (e2f_eta q s (nth 0 w 0%Z) (nth 1 e 0%Z))) (fun t => rbind (p_open q alice [t]) (fun z => Ret (Ok (e2f_out q alice s (nth 0 z 0%Z) x)))))
    | Err => Ret Err | UB => Ret UB end) (false, false) Q).
  { intros [e| |]; [|exact HE|exact HU].
    apply wp_rbind, (wp_open q Hq); [repeat constructor; apply (in_q q Hq)|]. intros [w| |] _; [|exact HE|exact HU].
    apply wp_rbind. unfold local. cbn [wp]. unfold e2f_eta. destruct (nth 0 w 0 =? 0); [first [exact HE|exact HU]|].
    destruct (BN_mod_inverse _ q); [|first [exact HE|exact HU]].
    apply wp_rbind, (wp_open q Hq); [repeat constructor; apply (in_q q Hq)|]. intros [o| |] _; [|exact HE|exact HU].
    cbn [wp]. apply H. intros u Eu. injection Eu as <-. apply out_range. }
  apply wp_rbind. destruct D as [[-> D]| ->].
  - apply wp_open_dirty; [exact Hq|exact F|discriminate|exact D|]. intro r. specialize (G r). destruct r; exact G.
  - apply (wp_open q Hq); [exact F|]. intros r _. specialize (G r). destruct r; exact G.
Qed.
Lemma wp_pms_online {C : Curve} alice s (V T : pt (cgrp C)) d (Q : res (pt (cgrp C) * Z) -> flags -> Prop) : (alice = false /\ snd d = false) \/ d = (false, false) ->
  (forall r, (forall T z, r = Ok (T, z) -> 0 <= z < q) -> Q r (false, false)) -> wp (p_pms_online q alice s V T) d Q.
Proof.
  intros D H. unfold p_pms_online. apply wp_rbind, wp_online_range; [exact D|].
  intros [z| |] R; cbn [wp]; apply H; try discriminate. intros T' z' [= <- <-]. now apply R.
Qed.
End Q.

Lemma cp_bound (C : Curve) : prime (cp C) -> bound1000 (cp C).
Proof.
  intro P. assert (Q2 := prime_ge_2 _ P). pose proof (cp_size C) as CS.
  split; [lia|]. apply Z.le_trans with (2 ^ 256); [lia|]. change 256 with (2 ^ 8) at 2. rewrite <- Z.pow_mul_r by lia.
  apply Z.pow_le_mono_r; [lia|]. unfold bn_buf. lia.
Qed.
(** the exchange after the offline phase, with what the two parties end with *)
Theorem pms_conv (C : Curve) ccrh bl ra rb Delta raw ta tb s xa ya xb yb :
  prime (cp C) -> cp C < 2 ^ Z.of_nat bl -> length raw = 5%nat -> Forall (fun r => length r = bl) raw ->
  let Ts := smul s (@gen C) in let Tc := padd (smul ta (@gen C)) (smul tb gen) in
  smul ta (@gen C) <> pz ->
  coords (smul tb Ts) = Some (xa, ya) -> coords (smul ta Ts) = Some (xb, yb) -> xa <> xb ->
  bound1000 (cp C) /\
  exists sa sb, e2f_offline ccrh (cp C) bl ra rb Delta raw = Ok (sa, sb) /\
    conv (p_e2f_offline ccrh (cp C) bl true ra Delta raw) (p_e2f_offline ccrh (cp C) bl false rb Delta raw) (Ok sa) (Ok sb) /\
    conv (p_client_VB tb Ts) (p_primus_VA ta Ts) (Ok (Tc, smul tb Ts, smul ta gen)) (Ok (smul ta Ts)) /\
    ((e_a sa + e_a sb) mod cp C <> 0 ->
     exists x y pa pb, coords (smul s Tc) = Some (x, y) /\ (pa + pb) mod cp C = x /\ 0 <= pa < cp C /\ 0 <= pb < cp C /\
       conv (p_pms_online (cp C) true sa (smul tb Ts) Tc) (p_pms_online (cp C) false sb (smul ta Ts) (smul ta Ts)) (Ok (Tc, pa)) (Ok (smul ta Ts, pb))).
Proof.
  intros P B L F Ts Tc NTa Ca Cb Nx.
  pose proof (cp_bound C P) as Bq.
  split; [exact Bq|].
  destruct (conv_offline ccrh (cp C) Bq bl ra rb Delta raw B L F) as (sa & sb & Eoff & K).
  exists sa, sb. split; [exact Eoff|]. split; [exact K|]. split; [exact (proj1 (conv_points ta tb Ts NTa))|]. intro Ha.
  destruct (e2f_correct ccrh (cp C) bl ra rb Delta raw xa ya xb yb P Bq B L F) as (sa' & sb' & E' & _ & On).
  assert (X1 : sa' = sa) by congruence. assert (X2 : sb' = sb) by congruence. subst sa' sb'.
  destruct (coords_range C _ _ _ Ca) as [Rxa Rya]. destruct (coords_range C _ _ _ Cb) as [Rxb Ryb].
  assert (Nm : xa mod cp C <> xb mod cp C) by (rewrite !Z.mod_small by lia; auto).
  destruct (On Ha Nm) as (pa & pb & y3 & Eon & Rpa & Rpb & Ch).
  destruct (coords_chord C _ _ _ _ _ _ Ca Cb Nx) as (x & y & Cs & Ch').
  assert (Rx := proj1 (coords_range C _ _ _ Cs)).
  assert (Ex : (pa + pb) mod cp C = x).
  { destruct (chord_unique _ _ _ _ _ _ _ _ _ P Nm Ch Ch') as [E _]. red in E. now rewrite (Z.mod_small x) in E by lia. }
  exists x, y, pa, pb. split.
  { unfold Tc. rewrite (dh_server ta tb s). rewrite padd_comm. exact Cs. }
  split; [exact Ex|]. split; [exact Rpa|]. split; [exact Rpb|].
  pose proof (conv_pms_online (cp C) Bq sa sb (smul ta Ts) (smul tb Ts) Tc) as V.
  unfold pms_run, affine in V. rewrite Ca, Cb in V. cbn [fst snd] in V. rewrite Eon in V. exact V.
Qed.
