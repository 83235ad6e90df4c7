(** A party's program over every sequence of messages: it ends in undefined behaviour only at an announced
    length above the buffer's. *)
From Coq Require Import List NArith ZArith Bool Arith Lia Znumtheory.
From Verif Require Import L_Bits L_Res S_Sched S_Feed L_Group S_Ec M_Bn M_Ec M_Ole M_E2f M_Exch M_ExchDh.
From Verif Require Import P_Bn P_Ole P_E2f P_Sched P_Exch P_WholeDh.
Import ListNotations.
Local Open Scope Z_scope.

Lemma fed_bind {A B} (p : proc A) (f : A -> proc B) : forall ins r, fed (pbind p f) ins r ->
  exists i1 a i2, ins = i1 ++ i2 /\ fed p i1 a /\ fed (f a) i2 r.
Proof.
  induction p as [a|c l p IH|c p IH|c n k IH]; cbn [pbind]; intros ins r H.
  - exists [], a, ins. split; [reflexivity|]. split; [constructor|exact H].
  - inversion H; subst. destruct (IH _ _ ltac:(eassumption)) as (i1 & a & i2 & E & F1 & F2). exists i1, a, i2. split; [exact E|]. split; [now constructor|exact F2].
  - inversion H; subst. destruct (IH _ _ ltac:(eassumption)) as (i1 & a & i2 & E & F1 & F2). exists i1, a, i2. split; [exact E|]. split; [now constructor|exact F2].
  - inversion H; subst. destruct (IH _ _ _ ltac:(eassumption)) as (i1 & a & i2 & -> & F1 & F2).
    exists (bs :: i1), a, i2. split; [reflexivity|]. split; [now constructor|exact F2].
Qed.
Lemma fed_wp {A} (p : proc A) ins r : fed p ins r -> forall d (Q : A -> flags -> Prop), wp p d Q -> exists d', Q r d'.
Proof.
  induction 1 as [a|c l p ins r H IH|c p ins r H IH|c n k bs ins r L H IH]; cbn [wp]; intros d Q W.
  - eauto.
  - exact (IH _ _ W).
  - exact (IH _ _ W).
  - destruct W as [_ W]. exact (IH _ _ (W _ L)).
Qed.

(** undefined behaviour at an oversized announcement, the last thing received, or the condition *)
Definition sf {A} (p : proc (res A)) (Q : res A -> Prop) : Prop :=
  forall ins r, fed p ins r -> (r = UB /\ exists pre h, ins = pre ++ [h] /\ oversized h) \/ Q r.
Lemma sf_ret {A} (r : res A) (Q : res A -> Prop) : Q r -> sf (Ret r) Q.
Proof. intros H ins x F. inversion F; subst. now right. Qed.
Lemma sf_send {A} c l (p : proc (res A)) Q : sf p Q -> sf (Send c l p) Q.
Proof. intros H ins r F. inversion F; subst. eauto. Qed.
Lemma sf_flush {A} c (p : proc (res A)) Q : sf p Q -> sf (Flush c p) Q.
Proof. intros H ins r F. inversion F; subst. eauto. Qed.
Lemma sf_recv {A} c n (k : list N -> proc (res A)) Q : (forall bs, length bs = n -> sf (k bs) Q) -> sf (Recv c n k) Q.
Proof.
  intros H ins r F. inversion F; subst. destruct (H bs eq_refl _ _ ltac:(eassumption)) as [(-> & pre & h & -> & O)|K]; [|now right].
  left. split; [reflexivity|]. exists (bs :: pre), h. auto.
Qed.
Lemma sf_wp {A} (p : proc (res A)) d (Q : res A -> flags -> Prop) (R : res A -> Prop) : wp p d Q -> (forall r d', Q r d' -> R r) -> sf p R.
Proof. intros W H ins r F. destruct (fed_wp _ _ _ F _ _ W) as [d' K]. right. eauto. Qed.
Lemma sf_mono {A} (p : proc (res A)) (Q R : res A -> Prop) : (forall r, Q r -> R r) -> sf p Q -> sf p R.
Proof. intros M H ins r F. destruct (H _ _ F); auto. Qed.
Lemma sf_rbind {A B} (p : proc (res A)) (f : A -> proc (res B)) Q :
  sf p (fun r => match r with Ok a => sf (f a) Q | Err => Q Err | UB => Q UB end) -> sf (rbind p f) Q.
Proof.
  intros H ins r F. destruct (fed_bind _ _ _ _ F) as (i1 & a & i2 & -> & F1 & F2).
  destruct (H _ _ F1) as [(-> & pre & h & -> & O)|K].
  - inversion F2; subst. left. split; [reflexivity|]. exists pre, h. rewrite app_nil_r. auto.
  - destruct a as [a| |]; [|inversion F2; subst; now right..].
    destruct (K _ _ F2) as [(-> & pre & h & -> & O)|K2]; [|now right].
    left. split; [reflexivity|]. exists (i1 ++ pre), h. rewrite app_assoc. auto.
Qed.
(** a step that has a value *)
Lemma sf_step {A B} (p : proc (res A)) (f : A -> proc (res B)) (V : A -> Prop) Q :
  sf p (fun r => exists a, r = Ok a /\ V a) -> (forall a, V a -> sf (f a) Q) -> sf (rbind p f) Q.
Proof. intros H K. apply sf_rbind. eapply sf_mono; [|exact H]. intros r (a & -> & Va). auto. Qed.

Lemma sf_recv_bn c : sf (p_recv_bn c) (fun r => exists z, r = Ok z /\ True).
Proof.
  intros ins r F. unfold p_recv_bn in F. inversion F as [| | |? ? ? bs ? ? L F']; subst. clear F. cbv zeta in F'. change (N.of_nat bn_buf) with 1000%N in F'.
  destruct (1000 <? u32_value bs)%N eqn:E.
  - inversion F'; subst. left. split; [reflexivity|]. exists [], bs. split; [reflexivity|].
    destruct bs as [|a [|b [|c' [|d [|? ?]]]]]; try discriminate. exists a, b, c', d. split; [reflexivity|].
    apply N.ltb_lt in E. unfold u32_value in E. cbn [fold_right] in E. lia.
  - inversion F' as [| | |? ? ? ? ? ? L2 F2]; subst. inversion F2; subst. right. eauto.
Qed.
Lemma sf_recv_bns c n : sf (p_recv_bns c n) (fun r => exists l, r = Ok l /\ length l = n).
Proof.
  induction n as [|n IH]; cbn [p_recv_bns]; [apply sf_ret; eauto|].
  eapply sf_step; [apply sf_recv_bn|]. intros z _. eapply sf_step; [exact IH|]. intros l L. apply sf_ret. exists (z :: l). cbn. auto.
Qed.
Lemma sf_send_bns c l : Forall fits l -> sf (p_send_bns c l) (fun r => exists u, r = Ok u /\ True).
Proof.
  intro F. eapply sf_wp with (d := (false, false)) (Q := fun r _ => r = Ok tt); [apply wp_send_bns; [exact F|reflexivity]|]. intros r _ ->. eauto.
Qed.

Section Q.
Variable ccrh : N -> N.
Variable q : Z.
Hypothesis Hp : prime q.
Hypothesis Hq : bound1000 q.
Lemma sf_ole_send bl Delta : forall ins raw, length raw = length ins -> sf (p_ole_send ccrh q bl Delta raw ins) (fun r => exists l, r = Ok l /\ True).
Proof.
  induction ins as [|x ins IH]; intros [|row raw] L; try discriminate; cbn [p_ole_send]; [apply sf_ret; eauto|].
  destruct (ole_send_loop ccrh q Delta x (combine (ole_exp q bl) row) 0) as [o ms] eqn:E.
  eapply sf_step; [apply sf_send_bns; eapply (inq_fits q Hq), (ole_send_loop_inq ccrh q Hq), E|]. intros _ _. apply sf_flush.
  eapply sf_step; [apply IH; now injection L|]. intros os _. apply sf_ret. eauto.
Qed.
Lemma sf_ole_loop : forall l o, sf (p_ole_recv_loop ccrh q l o) (fun r => exists z, r = Ok z /\ True).
Proof.
  induction l as [|[e [row b]] l IH]; intro o; cbn [p_ole_recv_loop]; [apply sf_ret; eauto|].
  eapply sf_step; [apply sf_recv_bn|]. intros z _. apply IH.
Qed.
Lemma sf_ole_recv bl : forall ins raw, length raw = length ins -> sf (p_ole_recv ccrh q bl raw ins) (fun r => exists l, r = Ok l /\ True).
Proof.
  induction ins as [|x ins IH]; intros [|row raw] L; try discriminate; cbn [p_ole_recv]; [apply sf_ret; eauto|].
  eapply sf_step; [apply sf_ole_loop|]. intros o _. eapply sf_step; [apply IH; now injection L|]. intros os _. apply sf_ret. eauto.
Qed.
Lemma sf_offline bl alice r Delta raw : length raw = 5%nat -> sf (p_e2f_offline ccrh q bl alice r Delta raw) (fun r => exists s, r = Ok s /\ True).
Proof.
  intro L. unfold p_e2f_offline. eapply sf_step with (V := fun _ => True); [|intros o _; apply sf_ret; eauto].
  destruct alice; [apply sf_ole_send, L|apply sf_ole_recv].
  do 6 (destruct raw as [|? raw]; try discriminate). reflexivity.
Qed.
Lemma sf_open alice v : Forall (fun x => 0 <= x < q) v ->
  sf (p_open q alice v) (fun r => exists l, r = Ok l /\ length l = length v /\ Forall (fun x => 0 <= x < q) l).
Proof.
  intro F. unfold p_open.
  assert (G : forall mine theirs, sf (rbind (p_send_bns mine v) (fun _ => Flush mine (rbind (p_recv_bns theirs (length v)) (fun t => Ret (Ok (map2 (fun v t => BN_mod_add v t q) v t))))))
    (fun r => exists l, r = Ok l /\ length l = length v /\ Forall (fun x => 0 <= x < q) l)).
  { intros mine theirs. eapply sf_step; [apply sf_send_bns, (inq_fits q Hq), F|]. intros _ _. apply sf_flush.
    eapply sf_step; [apply sf_recv_bns|]. intros t Lt. apply sf_ret. eexists. split; [reflexivity|]. clear F. revert t Lt.
    induction v as [|x v' IH]; intros [|y t] Lt; try discriminate; cbn [map2]; [auto|].
    destruct (IH t ltac:(now injection Lt)) as [A B]. cbn [length]. split; [now rewrite A|]. constructor; [apply (in_q q Hq)|exact B]. }
  destruct alice; apply G.
Qed.
Lemma sf_online alice s x y : sf (p_e2f_online q alice s x y) (fun r => r = Err \/ exists z, r = Ok z /\ 0 <= z < q).
Proof.
  unfold p_e2f_online.
  eapply sf_step; [apply sf_open; repeat constructor; apply (in_q q Hq)|]. intros e _.
  eapply sf_step; [apply sf_open; repeat constructor; apply (in_q q Hq)|]. intros w [Lw Fw].
  destruct w as [|w [|? ?]]; try discriminate. apply Forall_inv in Fw. cbn [nth].
  apply sf_rbind. unfold local. apply sf_ret. unfold e2f_eta. destruct (w =? 0) eqn:W0; [now left|]. apply Z.eqb_neq in W0.
  destruct (BN_mod_inverse_ok w q) as (i & -> & _).
  { pose proof (prime_ge_2 _ Hp). lia. }
  { apply Zgcd_1_rel_prime, rel_prime_sym, (prime_rel_prime _ Hp). intro D. apply Z.divide_pos_le in D; lia. }
  eapply sf_step; [apply sf_open; repeat constructor; apply (in_q q Hq)|]. intros z _. apply sf_ret. right. eexists. split; [reflexivity|]. apply (out_range q Hq).
Qed.
Lemma sf_pms_online {C : Curve} alice s (V T : pt (cgrp C)) : sf (p_pms_online q alice s V T) (fun r => r = Err \/ exists z, r = Ok (T, z) /\ 0 <= z < q).
Proof.
  unfold p_pms_online. apply sf_rbind. eapply sf_mono; [|apply sf_online]. intros r [-> |(z & -> & R)]; [now left|]. apply sf_ret. right. eauto.
Qed.
End Q.
Lemma sf_client_VB {C : Curve} t (Ts : pt (cgrp C)) : sf (p_client_VB t Ts) (fun r => r <> UB).
Proof.
  unfold p_client_VB. apply sf_recv. intros bs L. apply sf_ret. unfold compute_client_VB, recv65. rewrite L. cbn.
  destruct (oct2point _); cbn; discriminate.
Qed.

(** * The overrun is reached *)
Lemma fed_app {A B} (p : proc A) i1 a : fed p i1 a -> forall (f : A -> proc B) i2 r, fed (f a) i2 r -> fed (pbind p f) (i1 ++ i2) r.
Proof. induction 1; cbn [pbind app]; intros f i2 r0 K; [exact K|constructor..]; auto. Qed.
Lemma fed_ok {A B} (p : proc (res A)) (f : A -> proc (res B)) i1 i2 a r : fed p i1 (Ok a) -> fed (f a) i2 r -> fed (rbind p f) (i1 ++ i2) r.
Proof. intros H K. exact (fed_app _ _ _ H _ _ _ K). Qed.
Lemma fed_ub {A B} (p : proc (res A)) (f : A -> proc (res B)) i1 : fed p i1 UB -> fed (rbind p f) i1 UB.
Proof. intros H. rewrite <- (app_nil_r i1). apply (fed_app _ _ _ H). constructor. Qed.
Lemma fed_over c h : oversized h -> fed (p_recv_bn c) [h] UB.
Proof.
  intros (a & b & c' & d & -> & O). unfold p_recv_bn. constructor; [reflexivity|]. cbv zeta. change (N.of_nat bn_buf) with 1000%N.
  replace (1000 <? u32_value [a; b; c'; d])%N with true; [constructor|]. symmetry. apply N.ltb_lt. unfold u32_value. cbn [fold_right]. lia.
Qed.
Lemma fed_send_bns c l : Forall fits l -> fed (p_send_bns c l) [] (Ok tt).
Proof.
  induction 1 as [|x l F _ IH]; cbn [p_send_bns]; [constructor|]. change (@nil (list N)) with (@nil (list N) ++ []). eapply fed_ok; [|exact IH].
  unfold p_send_bn. cbv zeta. destruct (bn_buf <? length (BN_bn2bin x))%nat eqn:E.
  - exfalso. apply (wp_send_bn IO x (false, false) (fun r _ => r = Ok tt)) in F; [|reflexivity]. unfold p_send_bn in F. cbv zeta in F. rewrite E in F. discriminate.
  - do 3 constructor.
Qed.
Section V.
Variable ccrh : N -> N.
Variable q : Z.
Hypothesis Hq : bound1000 q.
Lemma fed_ole_send bl Delta : forall ins raw, length raw = length ins -> exists l, fed (p_ole_send ccrh q bl Delta raw ins) [] (Ok l).
Proof.
  induction ins as [|x ins IH]; intros [|row raw] L; try discriminate; cbn [p_ole_send]; [eexists; constructor|].
  destruct (ole_send_loop ccrh q Delta x (combine (ole_exp q bl) row) 0) as [o ms] eqn:E.
  destruct (IH raw ltac:(now injection L)) as [os H]. exists (o :: os).
  change (@nil (list N)) with (@nil (list N) ++ []). eapply fed_ok; [apply fed_send_bns; eapply (inq_fits q Hq), (ole_send_loop_inq ccrh q Hq), E|].
  constructor. change (@nil (list N)) with (@nil (list N) ++ []). eapply fed_ok; [exact H|constructor].
Qed.
Lemma over_offline bl r Delta row raw h : (0 < bl)%nat -> row <> [] -> oversized h -> fed (p_e2f_offline ccrh q bl false r Delta (row :: raw)) [h] UB.
Proof.
  intros B NR O. unfold p_e2f_offline. apply fed_ub. cbn [map2 p_ole_recv]. apply fed_ub.
  destruct row as [|w row]; [congruence|]. destruct bl as [|bl]; [lia|].
  unfold ole_exp, ole_bits, cot_recv. cbn [seq map].
  match goal with |- fed (p_ole_recv_loop _ _ ?l _) _ _ => destruct l as [|[? [? ?]] ?] eqn:E end; [discriminate|].
  cbn [p_ole_recv_loop]. apply fed_ub, fed_over, O.
Qed.
Lemma over_online s x y h : oversized h -> fed (p_e2f_online q true s x y) [h] UB.
Proof.
  intro O. unfold p_e2f_online. apply fed_ub. unfold p_open. change [h] with ([] ++ [h]). eapply fed_ok.
  { apply fed_send_bns, (inq_fits q Hq). repeat constructor; apply (in_q q Hq). }
  constructor. apply fed_ub. unfold e2f_eps. cbn [length p_recv_bns]. apply fed_ub, fed_over, O.
Qed.
End V.
