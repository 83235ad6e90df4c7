(** The key agreement under any schedule, and exchanges that end without a flush. *)
From Coq Require Import List NArith ZArith Bool Arith Lia Znumtheory.
From Verif Require Import L_Bits L_Res S_Sched L_Group S_Ec M_Bn M_Ec M_Ole M_E2f M_Exch M_ExchDh.
From Verif Require Import P_Bn P_Dh P_Ole P_E2f P_Sched P_Exch.
Import ListNotations.
Local Open Scope Z_scope.

(** * Programs that only send *)
Fixpoint only_sends {A} (p : proc A) : Prop :=
  match p with Ret _ => True | Send _ _ p => only_sends p | Flush _ _ => False | Recv _ _ _ => False end.
Lemma only_sends_bind {A B} (p : proc A) (f : A -> proc B) : only_sends p -> (forall a, only_sends (f a)) -> only_sends (pbind p f).
Proof. induction p; cbn; auto. Qed.
(** if one program only sends and the other starts by receiving, some schedule leaves the
    second waiting for bytes that are still in the first one's buffer *)
Theorem unflushed_deadlock {A B} (p : proc A) c n (k : list N -> proc B) : only_sends p -> (n <> O)%nat ->
  can_deadlock p (Recv c n k) /\ can_deadlock (Recv c n k) p.
Proof.
  intros H Hn.
  assert (G : forall (p : proc A) o, only_sends p -> exists a o',
    (forall x, reach x (mkSide p o nobufs, mkSide (Recv c n k) nobufs nobufs) -> reach x (mkSide (Ret a) o' nobufs, mkSide (Recv c n k) nobufs nobufs)) /\
    (forall x, reach x (mkSide (Recv c n k) nobufs nobufs, mkSide p o nobufs) -> reach x (mkSide (Recv c n k) nobufs nobufs, mkSide (Ret a) o' nobufs))).
  { clear p H. induction p as [a|d bs p IH|d p IH|d m kk IH]; intros o H; cbn in H; try contradiction.
    - exists a, o. auto.
    - destruct (IH (put o d (get o d ++ bs)) H) as (a & o' & R1 & R2). exists a, o'. split; intros x R.
      + apply R1. eapply reach_step; [exact R|]. apply StepProg.
        apply (StepA (mkSide (Send d bs p) o nobufs) (mkSide (Recv c n k) nobufs nobufs) (mkSide p (put o d (get o d ++ bs)) nobufs) nobufs). constructor.
      + apply R2. eapply reach_step; [exact R|]. apply StepProg.
        apply (StepB (mkSide (Recv c n k) nobufs nobufs) (mkSide (Send d bs p) o nobufs) (mkSide p (put o d (get o d ++ bs)) nobufs) nobufs). constructor. }
  destruct (G p nobufs H) as (a & o' & R1 & R2).
  assert (NS : forall s w, ~ pstep (mkSide (Recv c n k) nobufs nobufs) nobufs s w).
  { intros s w P. inversion P; subst; [destruct c; now cbn in *|]. destruct c; cbn in *; lia. }
  assert (NR : forall i s w, ~ pstep (mkSide (Ret a) o' nobufs) i s w) by (intros i s w P; inversion P).
  split.
  - eexists. split; [apply R1, reach_refl|]. split.
    + intros y S. inversion S as [x1 x2 x3 x4 P|x1 x2 x3 x4 P]; subst; cbn [wire] in P; [now apply NR in P|now apply NS in P].
    + right. cbn. discriminate.
  - eexists. split; [apply R2, reach_refl|]. split.
    + intros y S. inversion S as [x1 x2 x3 x4 P|x1 x2 x3 x4 P]; subst; cbn [wire] in P; [now apply NS in P|now apply NR in P].
    + left. cbn. discriminate.
Qed.

Section DH.
Context {C : Curve}.
Notation point := (pt (cgrp C)).
Variable ccrh : N -> N.
Variable q : Z.
Hypothesis Hq : bound1000 q.

Lemma VB_bytes ta tb (Ts : point) : smul ta (@gen (cgrp C)) <> pz -> exists bytes, length bytes = 65%nat /\
  p_primus_VA ta Ts = Send IO bytes (Ret (Ok (smul ta Ts))) /\
  (let* (Tc, Vb, Ta, _) := compute_client_VB tb Ts bytes in Ok (Tc, Vb, Ta))%res = Ok (padd (smul ta gen) (smul tb gen), smul tb Ts, smul ta gen).
Proof.
  intro N. pose proof (dh_exchange_ok ta tb Ts N) as D. unfold dh_exchange in D.
  unfold p_primus_VA. destruct (compute_primus_VA ta Ts) as [[bytes Va] t] eqn:E. exists bytes.
  destruct (compute_client_VB tb Ts bytes) as [[[[Tc Vb] Ta] rest]| |] eqn:F; try discriminate D. cbn [bind] in *.
  split; [|split].
  - unfold compute_primus_VA in E. apply (f_equal (fun x => fst (fst x))) in E. cbn [fst] in E. subst bytes.
    rewrite mul_gen. now apply oct_len.
  - injection D as _ -> _ _. reflexivity.
  - injection D as -> _ -> ->. reflexivity.
Qed.
Lemma conv_recv65 {A B} bytes (f : list N -> A) (q1 : proc B) b : length bytes = 65%nat ->
  solo q1 nobufs nobufs (Ret b) (mkBufs bytes []) nobufs ->
  conv (Recv IO 65 (fun buf => Ret (f buf))) q1 (f bytes) b.
Proof.
  intros L S. eapply conv_aba; [apply solo_refl|exact S|].
  eapply solo_step; [apply ARecv; cbn; rewrite L; auto|]. cbn [get on_io]. rewrite <- L, firstn_all, skipn_all. constructor.
Qed.
Lemma conv_points ta tb (Ts : point) : smul ta (@gen (cgrp C)) <> pz ->
  conv (p_client_VB tb Ts) (p_primus_VA ta Ts) (Ok (padd (smul ta gen) (smul tb gen), smul tb Ts, smul ta gen)) (Ok (smul ta Ts)) /\
  conv (p_client_VB tb Ts) (rbind (p_primus_VA ta Ts) (fun v => Flush IO (Ret (Ok v))))
    (Ok (padd (smul ta gen) (smul tb gen), smul tb Ts, smul ta gen)) (Ok (smul ta Ts)).
Proof.
  intro N. destruct (VB_bytes ta tb Ts N) as (bytes & L & E & F). rewrite E. unfold p_client_VB. rewrite <- F. split.
  - apply (conv_recv65 bytes (fun buf => (let* (Tc, Vb, Ta, _) := compute_client_VB tb Ts buf in Ok (Tc, Vb, Ta))%res) _ _ L).
    apply solo_one. constructor.
  - apply (conv_recv65 bytes (fun buf => (let* (Tc, Vb, Ta, _) := compute_client_VB tb Ts buf in Ok (Tc, Vb, Ta))%res) _ _ L).
    eapply solo_step; [constructor|]. apply solo_one. constructor.
Qed.

(** ** Flags, the attestor's IO channel possibly not flushed *)
Lemma wp_ole_recv_dirty bl : forall ins raw d (Q : res (list Z) -> flags -> Prop), snd d = false -> length raw = length ins ->
  (forall r d', snd d' = false -> (forall l, r <> Ok l) -> d' = (false, false) -> Q r d') ->
  (forall l d', snd d' = false -> Q (Ok l) d') ->
  wp (p_ole_recv ccrh q bl raw ins) d Q.
Proof.
  assert (G : forall l out d (Q : res Z -> flags -> Prop), snd d = false -> 
    (forall r d', snd d' = false -> (forall l, r <> Ok l) -> d' = (false, false) -> Q r d') ->
    (forall l d', snd d' = false -> Q (Ok l) d') -> wp (p_ole_recv_loop ccrh q l out) d Q).
  { induction l as [|[e [raw bit]] l IH]; intros out d Q D H1 H2; cbn [p_ole_recv_loop]; [now apply H2|].
    apply wp_rbind, wp_recv_bn; [exact D|]. destruct d as [d0 d1]. cbn in D. subst d1.
    intros [x| |]; [apply IH; auto|apply H1; easy|apply H1; easy]. }
  induction ins as [|x ins IH]; intros raw d Q D L H1 H2; destruct raw as [|row raw]; try discriminate L; cbn [p_ole_recv].
  - now apply H2.
  - apply wp_rbind, G; [exact D| |].
    + intros [o| |] d' D' X ->; [now destruct (X o)|now apply H1|now apply H1].
    + intros o d' D'. apply wp_rbind, IH; [exact D'|cbn in L; lia| |].
      * intros [os| |] d2 D2 X ->; [now destruct (X os)|now apply H1|now apply H1].
      * intros os d2 D2. cbn [wp]. now apply H2.
Qed.
Lemma wp_offline_dirty bl r Delta raw d (Q : res e2f -> flags -> Prop) : snd d = false -> length raw = 5%nat ->
  (forall r d', snd d' = false -> (forall l, r <> Ok l) -> d' = (false, false) -> Q r d') ->
  (forall l d', snd d' = false -> Q (Ok l) d') ->
  wp (p_e2f_offline ccrh q bl false r Delta raw) d Q.
Proof.
  intros D L H1 H2. unfold p_e2f_offline. apply wp_rbind, wp_ole_recv_dirty; [exact D|rewrite map2_length, L; reflexivity| |].
  - intros [o| |] d' D' X ->; [now destruct (X o)|now apply H1|now apply H1].
  - intros o d' D'. now apply H2.
Qed.
Lemma wp_recv_bns_dirty : forall n d (Q : res (list Z) -> flags -> Prop), snd d = false ->
  (forall r, (forall l, r = Ok l -> length l = S n) -> Q r (false, false)) -> wp (p_recv_bns IO (S n)) d Q.
Proof.
  intros n d Q D H. cbn [p_recv_bns]. apply wp_rbind, wp_recv_bn; [exact D|].
  destruct d as [d0 d1]. cbn in D. subst d1. cbn [fset snd]. intros [x| |]; [|apply H; discriminate|apply H; discriminate].
  apply wp_rbind, wp_recv_bns; [reflexivity|]. intros [l| |] L; [|apply H; discriminate|apply H; discriminate].
  cbn [wp]. apply H. intros l' [= <-]. cbn. f_equal. now apply L.
Qed.
Lemma wp_open_dirty v d (Q : res (list Z) -> flags -> Prop) : Forall (fun x => 0 <= x < q) v -> v <> [] -> snd d = false ->
  (forall r, Q r (false, false)) -> wp (p_open q false v) d Q.
Proof.
  intros F NE D H. unfold p_open. apply wp_rbind, wp_send_bns; [now apply (inq_fits q Hq)|].
  intros d' E. cbn [wp]. apply wp_rbind. destruct v as [|x v]; [congruence|]. cbn [length].
  apply wp_recv_bns_dirty; [now destruct d'|]. intros [l| |] _; apply H.
Qed.
Lemma wp_online_dirty s x y d : snd d = false -> wp (p_e2f_online q false s x y) d clean.
Proof.
  intro D. unfold p_e2f_online.
  assert (F : Forall (fun x => 0 <= x < q) (e2f_eps q false s x y)) by (repeat constructor; apply (in_q q Hq)).
  apply wp_rbind, wp_open_dirty; [exact F|discriminate|exact D|]. intros [e| |]; [|reflexivity|reflexivity].
  apply wp_rbind, (wp_open q Hq); [repeat constructor; apply (in_q q Hq)|]. intros [w| |] _; [|reflexivity|reflexivity].
  apply wp_rbind. unfold local. cbn [wp]. unfold e2f_eta. destruct (nth 0 w 0 =? 0); [reflexivity|].
  destruct (BN_mod_inverse _ q); [|reflexivity].
  apply wp_rbind, (wp_open q Hq); [repeat constructor; apply (in_q q Hq)|]. intros [o| |] _; reflexivity.
Qed.

(** what the client and the attestor end with *)
Definition alice_out (Tc : point) (r : res (Z * Z)) : res (point * Z) :=
  match r with Ok (a, _) => Ok (Tc, a) | Err => Err | UB => UB end.
Definition bob_out (Va : point) (r : res (Z * Z)) : res (point * Z) :=
  match r with Ok (_, b) => Ok (Va, b) | Err => Err | UB => UB end.
(** the conversion of the two points with the two triples *)
Definition pms_run (s t : e2f) (Vb Va : point) : res (Z * Z) :=
  e2f_online q s t (fst (affine Vb)) (snd (affine Vb)) (fst (affine Va)) (snd (affine Va)).

Lemma conv_pms_online s t (Va Vb : point) Tc :
  conv (p_pms_online q true s Vb Tc) (p_pms_online q false t Va Va) (alice_out Tc (pms_run s t Vb Va)) (bob_out Va (pms_run s t Vb Va)).
Proof.
  unfold p_pms_online, pms_input.
  pose proof (conv_online q Hq s t (fst (affine Vb)) (snd (affine Vb)) (fst (affine Va)) (snd (affine Va))) as K.
  unfold pms_run. destruct (e2f_online q s t _ _ _ _) as [[a b]| |]; cbn [both alice_out bob_out] in *.
  - eapply conv_rbind; [apply K; split; reflexivity|]. apply conv_ret.
  - apply conv_rerr, K. now split.
  - apply conv_rub, K. now split.
Qed.

Theorem pms_completes bl ta tb (Ts : point) ra rb Delta raw : smul ta (@gen (cgrp C)) <> pz ->
  q < 2 ^ Z.of_nat bl -> length raw = 5%nat -> Forall (fun r => length r = bl) raw ->
  exists s t, e2f_offline ccrh q bl ra rb Delta raw = Ok (s, t) /\
    let r := pms_run s t (smul tb Ts) (smul ta Ts) in
    let oa := alice_out (padd (smul ta gen) (smul tb gen)) r in
    let ob := bob_out (smul ta Ts) r in
    always_completes (p_pms_alice ccrh q bl tb Ts ra Delta raw) (p_pms_bob ccrh q bl ta Ts rb Delta raw) oa ob /\
    always_completes (p_pms_off_alice ccrh q bl tb Ts ra Delta raw) (p_pms_off_bob ccrh q bl ta Ts rb Delta raw) oa ob.
Proof.
  intros NZ B L F. destruct (conv_offline ccrh q Hq bl ra rb Delta raw B L F) as (s & t & E & K). exists s, t.
  split; [exact E|]. cbv zeta. pose proof (proj1 (conv_points ta tb Ts NZ)) as P.
  pose proof (conv_pms_online s t (smul ta Ts) (smul tb Ts) (padd (smul ta gen) (smul tb gen))) as O.
  assert (WO : forall s (V T : point), wp (p_pms_online q true s V T) (false, false) clean).
  { intros. apply wp_rbind. eapply wp_mono; [|apply (wp_online q Hq)]. intros [x| |] d ->; reflexivity. }
  assert (WB : forall s (V T : point) d, snd d = false -> wp (p_pms_online q false s V T) d clean).
  { intros. apply wp_rbind. eapply wp_mono; [|now apply wp_online_dirty]. intros [x| |] d' ->; reflexivity. }
  split.
  - assert (K' : conv (p_pms_alice ccrh q bl tb Ts ra Delta raw) (p_pms_bob ccrh q bl ta Ts rb Delta raw)
      (alice_out (padd (smul ta gen) (smul tb gen)) (pms_run s t (smul tb Ts) (smul ta Ts))) (bob_out (smul ta Ts) (pms_run s t (smul tb Ts) (smul ta Ts)))).
    { unfold p_pms_alice, p_pms_bob. eapply conv_rbind; [exact P|]. cbv beta iota. eapply conv_rbind; [exact K|]. exact O. }
    destruct K' as [n K']. eapply completes; [| |exact K'].
    + apply wp_rbind. unfold p_client_VB. cbn [wp]. split; [reflexivity|]. intros bs _. cbn [fset snd].
      destruct (compute_client_VB tb Ts bs) as [[[[Tc Vb] Ta] rest]| |]; cbn [bind]; [|reflexivity|reflexivity].
      apply wp_rbind, (wp_offline ccrh q Hq). intros [u| |]; [apply WO|reflexivity|reflexivity].
    + apply wp_rbind. unfold p_primus_VA. destruct (compute_primus_VA ta Ts) as [[bytes Va] t0]. cbn [wp fset snd].
      apply wp_rbind, wp_offline_dirty; [reflexivity|exact L| |].
      * intros [o| |] d' D' X ->; [now destruct (X o)|reflexivity|reflexivity].
      * intros u d' D'. now apply WB.
  - assert (K' : conv (p_pms_off_alice ccrh q bl tb Ts ra Delta raw) (p_pms_off_bob ccrh q bl ta Ts rb Delta raw)
      (alice_out (padd (smul ta gen) (smul tb gen)) (pms_run s t (smul tb Ts) (smul ta Ts))) (bob_out (smul ta Ts) (pms_run s t (smul tb Ts) (smul ta Ts)))).
    { unfold p_pms_off_alice, p_pms_off_bob. eapply conv_rbind; [exact K|]. cbv beta iota. eapply conv_rbind; [exact P|]. exact O. }
    destruct K' as [n K']. eapply completes; [| |exact K'].
    + apply wp_rbind, (wp_offline ccrh q Hq). intros [u| |]; [|reflexivity|reflexivity].
      apply wp_rbind. unfold p_client_VB. cbn [wp]. split; [reflexivity|]. intros bs _. cbn [fset snd].
      destruct (compute_client_VB tb Ts bs) as [[[[Tc Vb] Ta] rest]| |]; cbn [bind]; [|reflexivity|reflexivity]. apply WO.
    + apply wp_rbind, (wp_offline ccrh q Hq). intros [u| |]; [|reflexivity|reflexivity].
      apply wp_rbind. unfold p_primus_VA. destruct (compute_primus_VA ta Ts) as [[bytes Va] t0]. cbn [wp fset snd]. now apply WB.
Qed.

(** * Exchanges that end without a flush *)
Theorem points_alone ta tb (Ts : point) : smul ta (@gen (cgrp C)) <> pz ->
  can_deadlock (p_client_VB tb Ts) (p_primus_VA ta Ts) /\
  always_completes (p_client_VB tb Ts) (rbind (p_primus_VA ta Ts) (fun v => Flush IO (Ret (Ok v))))
    (Ok (padd (smul ta gen) (smul tb gen), smul tb Ts, smul ta gen)) (Ok (smul ta Ts)).
Proof.
  intro NZ. split.
  - apply (proj2 (unflushed_deadlock (p_primus_VA ta Ts) IO 65 _ ltac:(unfold p_primus_VA; destruct (compute_primus_VA ta Ts) as [[? ?] ?]; exact I) ltac:(lia))).
  - destruct (proj2 (conv_points ta tb Ts NZ)) as [n P]. eapply completes; [| |exact P].
    + unfold p_client_VB, disciplined. cbn [wp]. split; [reflexivity|]. intros. reflexivity.
    + unfold p_primus_VA, disciplined. destruct (compute_primus_VA ta Ts) as [[bytes Va] t0]. reflexivity.
Qed.
Theorem reveal_alone (Ta : point) ta tb (Ts : point) : annihilates C -> 0 <= ta -> (Z.abs_N ta < 256 ^ N.of_nat bn_buf)%N -> smul ta gen = Ta ->
  can_deadlock (p_reveal_alice Ta tb Ts) (p_reveal_bob ta) /\
  always_completes (p_reveal_alice Ta tb Ts) (rbind (p_reveal_bob ta) (fun _ => Flush IO (Ret (Ok tt))))
    (Ok (fst (affine (smul (ta + tb) Ts)))) (Ok tt).
Proof.
  intros An P0 Fit ETa.
  destruct (recv_send ta [] Fit) as (bytes & Es & Er). rewrite app_nil_r, Z.abs_eq in Er by exact P0.
  split.
  - unfold p_reveal_alice, p_recv_bn, rbind. cbn [pbind].
    apply (proj2 (unflushed_deadlock (p_reveal_bob ta) IO 4 _ ltac:(unfold p_reveal_bob, p_send_bn; destruct (bn_buf <? _)%nat; exact I) ltac:(lia))).
  - assert (K : conv (p_reveal_alice Ta tb Ts) (rbind (p_reveal_bob ta) (fun _ => Flush IO (Ret (Ok tt)))) (Ok (fst (affine (smul (ta + tb) Ts)))) (Ok tt)).
    { unfold p_reveal_alice, p_reveal_bob. eapply conv_aba; [apply solo_refl| |].
      - eapply solo_rbind; [apply solo_send_bn, Es|]. apply solo_one. constructor.
      - cbn [get nobufs on_io put app on_opt]. eapply solo_rbind.
        + apply (solo_recv_bn IO ta []). exact Er.
        + rewrite mul_gen, ETa, (proj2 (cmp_iff _ _) eq_refl). cbn [negb Z.eqb]. rewrite mul_pt. unfold BN_mod_add.
          rewrite smul_mod by exact An. constructor. }
    destruct K as [n K]. eapply completes; [| |exact K].
    + unfold p_reveal_alice, disciplined. apply wp_rbind, wp_recv_bn; [reflexivity|]. intros [t| |]; [|reflexivity|reflexivity].
      cbv zeta. destruct (negb _); reflexivity.
    + unfold p_reveal_bob, disciplined. apply wp_rbind, wp_send_bn; [exact Fit|]. reflexivity.
Qed.
End DH.

(** ** The completed key agreement yields shares of the server's x-coordinate *)
Theorem pms_sched (C : Curve) ccrh bl ra rb Delta raw ta tb s xa ya xb yb :
  prime (cp C) -> cp C < 2 ^ Z.of_nat bl -> length raw = 5%nat -> Forall (fun r => length r = bl) raw ->
  let Ts := smul s (@gen C) in let Tc := padd (smul ta (@gen C)) (smul tb gen) in
  smul ta (@gen C) <> pz ->
  coords (smul tb Ts) = Some (xa, ya) -> coords (smul ta Ts) = Some (xb, yb) -> xa <> xb ->
  exists sa sb, e2f_offline ccrh (cp C) bl ra rb Delta raw = Ok (sa, sb) /\
    ((e_a sa + e_a sb) mod cp C <> 0 ->
     exists x y pa pb, coords (smul s Tc) = Some (x, y) /\ (pa + pb) mod cp C = x /\ 0 <= pa < cp C /\ 0 <= pb < cp C /\
       always_completes (p_pms_alice ccrh (cp C) bl tb Ts ra Delta raw) (p_pms_bob ccrh (cp C) bl ta Ts rb Delta raw)
         (Ok (Tc, pa)) (Ok (smul ta Ts, pb)) /\
       always_completes (p_pms_off_alice ccrh (cp C) bl tb Ts ra Delta raw) (p_pms_off_bob ccrh (cp C) bl ta Ts rb Delta raw)
         (Ok (Tc, pa)) (Ok (smul ta Ts, pb))).
Proof.
  intros P B L F Ts Tc NTa Ca Cb Nx.
  assert (Q2 := prime_ge_2 _ P). pose proof (cp_size C) as CS.
  assert (Bq : bound1000 (cp C)).
  { split; [lia|]. apply Z.le_trans with (2 ^ 256); [lia|]. change 256 with (2 ^ 8) at 2. rewrite <- Z.pow_mul_r by lia.
    apply Z.pow_le_mono_r; [lia|]. unfold bn_buf. lia. }
  destruct (e2f_correct ccrh (cp C) bl ra rb Delta raw xa ya xb yb P Bq B L F) as (sa & sb & Eoff & _ & On).
  exists sa, sb. split; [exact Eoff|]. intro Ha.
  destruct (coords_range C _ _ _ Ca) as [Rxa Rya]. destruct (coords_range C _ _ _ Cb) as [Rxb Ryb].
  assert (Nm : xa mod cp C <> xb mod cp C) by (rewrite !Z.mod_small by lia; auto).
  destruct (On Ha Nm) as (pa & pb & y3 & Eon & Rpa & Rpb & Ch).
  destruct (coords_chord C _ _ _ _ _ _ Ca Cb Nx) as (x & y & Cs & Ch').
  assert (Rx := proj1 (coords_range C _ _ _ Cs)).
  assert (Ex : (pa + pb) mod cp C = x).
  { destruct (chord_unique _ _ _ _ _ _ _ _ _ P Nm Ch Ch') as [E _]. red in E. now rewrite (Z.mod_small x) in E by lia. }
  exists x, y, pa, pb. split.
  { unfold Tc. rewrite (dh_server ta tb s). rewrite padd_comm. exact Cs. }
  split; [exact Ex|]. split; [exact Rpa|]. split; [exact Rpb|].
  destruct (pms_completes ccrh (cp C) Bq bl ta tb Ts ra rb Delta raw NTa B L F) as (sa' & sb' & E' & K).
  assert (X1 : sa' = sa) by congruence. assert (X2 : sb' = sb) by congruence. subst sa' sb'.
  cbv zeta in K. unfold pms_run, affine in K. rewrite Ca, Cb in K. cbn [fst snd] in K. rewrite Eon in K. exact K.
Qed.
