(** The conversion of authenticated bits into commitments, run as two programs. *)
From Coq Require Import List NArith ZArith Bool Arith Lia Ring Setoid.
From Verif Require Import L_Bits L_Res L_Modq S_Sched S_View L_Group M_Utils M_Bn M_Ole M_Ec M_Commit M_ComConv M_Exch M_ExchCc M_CheatCc.
From Verif Require Import P_Bn P_Ole P_Dh P_Commit P_ComConv P_Sched P_Exch P_ExchDh P_View P_ViewStep.
Import ListNotations.
Local Open Scope Z_scope.

(** * General facts on runs *)
(** every run in which all bytes are delivered at once is a run *)
Lemma abs_reach {A B} n : forall (p : proc A) (q : proc B) s t p' q' s' t',
  abs_steps n (mkA p q s t) (mkA p' q' s' t') ->
  reach (mkSide p nobufs s, mkSide q nobufs t) (mkSide p' nobufs s', mkSide q' nobufs t').
Proof.
  assert (T : forall (x y z : @config A B), reach x y -> reach y z -> reach x z).
  { intros x y z H K. induction K as [|u v K IH S]; [exact H|eapply reach_step; eassumption]. }
  induction n as [|n IH]; intros p q s t p' q' s' t' H; inversion H as [x E1 E2|m x y z S1 S2 E1 E2 E3]; subst; [apply reach_refl|].
  destruct y as [p1 q1 s1 t1]. apply IH in S2. eapply T; [|exact S2]. clear IH S2 H.
  inversion S1 as [? ? ? ? ? ? ? K|? ? ? ? ? ? ? K]; subst.
  - inversion K as [c bs p2 so si|c p2 so si|c k kk so si L]; subst.
    + eapply T.
      * eapply reach_step; [apply reach_refl|]. apply StepProg.
        apply (StepA (mkSide (Send c bs p1) nobufs s) (mkSide q1 nobufs t1) (mkSide p1 (put nobufs c (get nobufs c ++ bs)) s) t1). constructor.
      * cbn [prog obuf]. destruct bs as [|b bs].
        { destruct c; cbn; rewrite app_nil_r, ?put_get; destruct s; apply reach_refl. }
        eapply reach_step; [apply reach_refl|]. apply StepEnvA.
        replace (mkSide p1 nobufs (put s c (get s c ++ b :: bs)))
          with (mkSide p1 (put (put nobufs c (get nobufs c ++ b :: bs)) c []) (put s c (get s c ++ b :: bs))) by now destruct c.
        constructor; [|discriminate]. rewrite get_put_same. destruct c; cbn; now rewrite app_nil_r.
    + eapply reach_step; [apply reach_refl|]. apply StepProg.
      replace (mkSide p1 nobufs s1) with (flushed p1 (mkSide (Flush c p1) nobufs s1) c) by (destruct c, s1; unfold flushed; cbn; now rewrite app_nil_r).
      apply (StepA (mkSide (Flush c p1) nobufs s1) (mkSide q1 nobufs t1) (flushed p1 (mkSide (Flush c p1) nobufs s1) c) t1). constructor.
    + eapply reach_step; [apply reach_refl|]. apply StepProg.
      apply (StepA (mkSide (Recv c k kk) nobufs s1) (mkSide q1 nobufs t) (mkSide (kk (firstn k (get t c))) nobufs s1) (put t c (skipn k (get t c)))).
      constructor; [now destruct c|exact L].
  - inversion K as [c bs p2 so si|c p2 so si|c k kk so si L]; subst.
    + eapply T.
      * eapply reach_step; [apply reach_refl|]. apply StepProg.
        apply (StepB (mkSide p1 nobufs s1) (mkSide (Send c bs q1) nobufs t) (mkSide q1 (put nobufs c (get nobufs c ++ bs)) t) s1). constructor.
      * cbn [prog obuf]. destruct bs as [|b bs].
        { destruct c; cbn; rewrite app_nil_r, ?put_get; destruct t; apply reach_refl. }
        eapply reach_step; [apply reach_refl|]. apply StepEnvB.
        replace (mkSide q1 nobufs (put t c (get t c ++ b :: bs)))
          with (mkSide q1 (put (put nobufs c (get nobufs c ++ b :: bs)) c []) (put t c (get t c ++ b :: bs))) by now destruct c.
        constructor; [|discriminate]. rewrite get_put_same. destruct c; cbn; now rewrite app_nil_r.
    + eapply reach_step; [apply reach_refl|]. apply StepProg.
      replace (mkSide q1 nobufs t1) with (flushed q1 (mkSide (Flush c q1) nobufs t1) c) by (destruct c, t1; unfold flushed; cbn; now rewrite app_nil_r).
      apply (StepB (mkSide p1 nobufs s1) (mkSide (Flush c q1) nobufs t1) (flushed q1 (mkSide (Flush c q1) nobufs t1) c) s1). constructor.
    + eapply reach_step; [apply reach_refl|]. apply StepProg.
      apply (StepB (mkSide p1 nobufs s) (mkSide (Recv c k kk) nobufs t1) (mkSide (kk (firstn k (get s c))) nobufs t1) (put s c (skipn k (get s c)))).
      constructor; [now destruct c|exact L].
Qed.
(** a deadlock after a completed beginning *)
Lemma deadlock_after {A B C D} (p : proc (res A)) (q : proc (res B)) a b (f : A -> proc (res C)) (g : B -> proc (res D)) :
  conv p q (Ok a) (Ok b) -> can_deadlock (f a) (g b) -> can_deadlock (rbind p f) (rbind q g).
Proof.
  intros [n H] (x & R & S). exists x. split; [|exact S].
  assert (T : forall (x y z : @config (res C) (res D)), reach x y -> reach y z -> reach x z).
  { intros x' y z H' K. induction K as [|u v K IH S']; [exact H'|eapply reach_step; eassumption]. }
  eapply T; [|exact R]. unfold start. eapply (abs_reach n).
  exact (abs_bind (fun r => match r with Ok a => f a | Err => Ret Err | UB => Ret UB end)
                  (fun r => match r with Ok b => g b | Err => Ret Err | UB => Ret UB end) n _ _ _ _ _ _ _ _ H).
Qed.
Lemma unlog {A B} (p : proc A) (q : proc B) a b s t : lconv p q a b s t -> conv p q a b.
Proof.
  intro H. assert (U : forall X (x : proc X) l, peq (pbind (logged x l) (fun r => Ret (fst r))) x)
    by (intros X x; induction x; intro l; cbn; constructor; auto).
  assert (K : conv (pbind (logged p nobufs) (fun r => Ret (fst r))) (pbind (logged q nobufs) (fun r => Ret (fst r))) a b)
    by (eapply conv_bind; [exact (H nobufs nobufs)|apply conv_ret]).
  destruct K as [n K]. exists n. eapply abs_peq; [exact K|apply U|apply U].
Qed.
(** a flush at the end of one program *)
Lemma lconv_flush_end {A B} (p : proc A) (q : proc B) a b s t : lconv p q a b s t ->
  lconv p (pbind q (fun o => Flush IO (Ret o))) a b s t.
Proof.
  intros H la lb. destruct (H la lb) as [n K]. exists (n + 1)%nat.
  assert (G : forall n X Y (f : Y -> proc Y) (p : proc X) (q : proc Y) s t p' q' s' t', abs_steps n (mkA p q s t) (mkA p' q' s' t') ->
     abs_steps n (mkA p (pbind q f) s t) (mkA p' (pbind q' f) s' t')).
  { clear. induction n as [|n IH]; intros X Y f p q s t p' q' s' t' H; inversion H as [x E1 E2|m x y z S1 S2 E1 E2 E3]; subst; [constructor|].
    destruct y as [p1 q1 s1 t1]. apply (IH X Y f) in S2. econstructor; [|exact S2].
    inversion S1; subst; [now apply AbsA|]. apply AbsB. now apply astep_bind. }
  eapply abs_peq; [|apply peq_refl|apply logged_bind].
  eapply abs_trans; [eapply (G n), K|]. cbn [pbind fst snd logged].
  econstructor; [apply AbsB; constructor|constructor].
Qed.

(** * The OLE on one pair *)
Section OLE1.
Variable ccrh_o : N -> N.
Context {C : Curve}.
Notation q := (order (cgrp C)).
Hypothesis Hq : bound1000 q.
Notation "a == b" := (cong q a b) (at level 70).
Lemma ole_send_one Delta row x : length row = BN_num_bits q ->
  exists o bytes, ole_send ccrh_o q (BN_num_bits q) Delta [row] [x] = Ok ([o], bytes).
Proof.
  intro L. cbn [ole_send].
  destruct (ole_send_loop ccrh_o q Delta x (combine (ole_exp q (BN_num_bits q)) row) 0) as [o ms] eqn:E.
  rewrite (send_bns_ok ms) by (eapply inq_fits; [exact Hq|eapply ole_send_loop_inq; [exact Hq|exact E]]). cbn [bind].
  eauto.
Qed.
Lemma ole_pair Delta row x y : length row = BN_num_bits q -> 0 <= y < q ->
  exists o bytes o', ole_send ccrh_o q (BN_num_bits q) Delta [row] [x] = Ok ([o], bytes) /\
    ole_recv ccrh_o q (BN_num_bits q) [cot_recv Delta row (ole_bits (BN_num_bits q) y)] [y] bytes = Ok ([o'], []) /\
    0 <= o < q /\ 0 <= o' < q /\ o + o' == x * y.
Proof.
  intros L Y. pose proof (num_bits_pow Hq) as NB.
  destruct (ole_correct ccrh_o q (BN_num_bits q) Delta [x] [y] [row] Hq eq_refl eq_refl) as (os & or_ & E & L1 & L2 & F1 & F2 & H).
  { now repeat constructor. } { repeat constructor; lia. }
  unfold ole_compute in E. destruct (ole_send_one Delta row x L) as (o & bytes & Es). rewrite Es in E. cbn [bind] in E.
  destruct (ole_recv _ _ _ _ _ _) as [[or' rest]| |] eqn:Er; try discriminate E. cbn [bind] in E.
  assert (os = [o]) as -> by congruence. assert (or' = or_) as -> by congruence. assert (rest = []) as -> by congruence.
  destruct or_ as [|o' [|? ?]]; try discriminate. cbn [map2] in Er.
  exists o, bytes, o'. rewrite Er. inversion F1; inversion F2; subst. do 4 (split; [auto|]).
  specialize (H 0%nat ltac:(cbn; lia)). cbn [nth] in H. apply cong_iff in H; [exact H|lia].
Qed.
Lemma lconv_cc_ole sends Delta row aDelta r : length row = BN_num_bits q -> 0 <= aDelta < q -> 0 <= r < q ->
  exists oa rMAC so to,
    lconv (p_cc_ole ccrh_o q sends Delta (cc_rows q sends Delta [row] aDelta) aDelta)
          (p_cc_ole ccrh_o q (negb sends) Delta (cc_rows q (negb sends) Delta [row] r) r) (Ok oa) (Ok rMAC) (io so) (io to) /\
    0 <= oa < q /\ 0 <= rMAC < q /\ rMAC == r * aDelta - oa /\
    (if sends then ole_send ccrh_o q (BN_num_bits q) Delta [row] [aDelta] = Ok ([oa], so) /\ to = []
     else ole_send ccrh_o q (BN_num_bits q) Delta [row] [r] = Ok ([rMAC], to) /\
          ole_recv ccrh_o q (BN_num_bits q) [cot_recv Delta row (ole_bits (BN_num_bits q) aDelta)] [aDelta] to = Ok ([oa], []) /\ so = []).
Proof.
  intros L Ra Rr. unfold p_cc_ole, cc_rows. destruct sends; cbn [negb map2].
  - destruct (ole_pair Delta row aDelta r L Rr) as (o & bytes & o' & Es & Er & R1 & R2 & E).
    exists o, o', bytes, []. split; [|split; [exact R1|split; [exact R2|split; [|now split]]]].
    + rewrite <- (app_nil_r bytes). change (@nil N) with (@nil N ++ []) at 2.
      eapply (lconv_seq _ _ _ _ [o] [o'] _ _ bytes [] [] []); [|apply lconv_end].
      apply lconv_ab.
      * exact (solo_ole_send ccrh_o q _ Delta [aDelta] [row] [o] bytes nobufs nobufs Es).
      * exact (solo_ole_recv ccrh_o q _ [r] _ [o'] [] nobufs (io bytes) Er).
    + transitivity (o + o' - o); [exists 0; ring|]. rewrite E. exists 0. ring.
  - destruct (ole_pair Delta row r aDelta L Ra) as (o & bytes & o' & Es & Er & R1 & R2 & E).
    exists o', o, [], bytes. split; [|split; [exact R2|split; [exact R1|split; [|split; [exact Es|split; [exact Er|reflexivity]]]]]].
    + rewrite <- (app_nil_r bytes). change (@nil N) with (@nil N ++ []) at 1.
      eapply (lconv_seq _ _ _ _ [o'] [o] _ _ [] bytes [] []); [|apply lconv_end].
      apply lconv_swap, lconv_ab.
      * exact (solo_ole_send ccrh_o q _ Delta [r] [row] [o] bytes nobufs nobufs Es).
      * exact (solo_ole_recv ccrh_o q _ [aDelta] _ [o'] [] nobufs (io bytes) Er).
    + transitivity (o + o' - o'); [exists 0; ring|]. rewrite E. exists 0. ring.
Qed.
Lemma num_bits_pos : (1 <= BN_num_bits q)%nat.
Proof.
  pose proof (num_bits_pow Hq) as H. destruct Hq as [H1 _]. destruct (BN_num_bits q); [cbn in H; lia|lia].
Qed.
Lemma wp_cc_ole sends Delta row x (Q : res Z -> flags -> Prop) b : length row = BN_num_bits q ->
  (forall r, Q r (false, false)) ->
  wp (p_cc_ole ccrh_o q sends Delta (cc_rows q sends Delta [row] x) x) (b, false) Q.
Proof.
  intros L H. unfold p_cc_ole, cc_rows. apply wp_rbind. destruct sends.
  - cbn [p_ole_send]. destruct (ole_send_loop ccrh_o q Delta x (combine (ole_exp q (BN_num_bits q)) row) 0) as [o ms] eqn:E.
    apply wp_rbind, wp_send_bns; [eapply inq_fits; [exact Hq|eapply ole_send_loop_inq; [exact Hq|exact E]]|].
    intros [d1 d2] D. cbn in D. subst d2. cbn. apply H.
  - cbn [map2 p_ole_recv].
    assert (G : forall l out (Q : res Z -> flags -> Prop), (forall r, Q r (false, false)) -> wp (p_ole_recv_loop ccrh_o q l out) (false, false) Q).
    { clear. induction l as [|[e [raw bit]] l IH]; intros out Q H; cbn [p_ole_recv_loop]; [apply H|].
      apply wp_rbind, wp_recv_bn; [reflexivity|]. intros [y| |]; [apply IH, H|apply H|apply H]. }
    assert (M : length (combine (ole_exp q (BN_num_bits q)) (combine (cot_recv Delta row (ole_bits (BN_num_bits q) x)) (ole_bits (BN_num_bits q) x))) = BN_num_bits q).
    { rewrite !combine_length. unfold ole_exp, ole_bits, cot_recv. rewrite ?map2_length, ?map_length, ?seq_length, L. lia. }
    destruct (combine _ _) as [|[e [u v]] l].
    + pose proof num_bits_pos. cbn in M. lia.
    + cbn [p_ole_recv_loop]. apply wp_rbind, wp_rbind, wp_recv_bn; [reflexivity|].
      intros [y| |]; cbn [fset snd]; [|apply H|apply H]. apply G. intros [z| |]; [|apply H|apply H]. cbn. apply H.
Qed.
End OLE1.

(** * Programs using one channel only *)
Fixpoint io_only {A} (p : proc A) : Prop :=
  match p with
  | Ret _ => True
  | Send c _ p => c = IO /\ io_only p
  | Flush c p => c = IO /\ io_only p
  | Recv c n k => c = IO /\ forall bs, io_only (k bs)
  end.
Lemma io_only_wp {A} (p : proc A) : io_only p -> forall b, wp p (b, false) (fun _ d => snd d = false).
Proof.
  induction p as [a|c bs p IH|c p IH|c n k IH]; cbn; intros H b; [reflexivity| | |]; destruct H as [-> H]; cbn; auto.
Qed.
Lemma io_only_bind {A B} (p : proc A) (f : A -> proc B) : io_only p -> (forall a, io_only (f a)) -> io_only (pbind p f).
Proof. induction p as [a|c bs p IH|c p IH|c n k IH]; cbn; intros H F; [apply F| | |]; destruct H; split; auto. Qed.
Lemma io_only_rbind {A B} (p : proc (res A)) (f : A -> proc (res B)) : io_only p -> (forall a, io_only (f a)) -> io_only (rbind p f).
Proof. intros H F. apply io_only_bind; [exact H|]. intros [a| |]; [apply F|exact I|exact I]. Qed.
Lemma io_only_flush {A} (p : proc A) : io_only p -> disciplined (pbind p (fun o => Flush IO (Ret o))).
Proof.
  intro H. apply wp_bind. eapply wp_mono; [|exact (io_only_wp p H false)]. intros a [d e] E. cbn in E. subst e. reflexivity.
Qed.
Lemma io_send_bn x : io_only (p_send_bn IO x).
Proof. unfold p_send_bn. destruct (_ <? _)%nat; cbn; auto. Qed.
Lemma io_recv_bn : io_only (p_recv_bn IO).
Proof. unfold p_recv_bn. cbn. split; [reflexivity|]. intro bs. destruct (_ <? _)%N; cbn; auto. Qed.
Lemma io_send_bns l : io_only (p_send_bns IO l).
Proof. induction l; cbn [p_send_bns]; [exact I|]. apply io_only_rbind; auto using io_send_bn. Qed.
Lemma io_recv_arrs n : io_only (p_recv_arrs IO n).
Proof.
  induction n; cbn [p_recv_arrs]; [exact I|]. apply io_only_rbind.
  - unfold p_recv_arr. cbn. split; [reflexivity|]. intro bs. destruct (_ <? _)%N; cbn; auto.
  - intro x. apply io_only_rbind; [assumption|]. intro. exact I.
Qed.
Lemma io_ole_send ccrh q bl Delta : forall ins raw, io_only (p_ole_send ccrh q bl Delta raw ins).
Proof.
  induction ins as [|x ins IH]; intros [|r raw]; cbn [p_ole_send]; try exact I.
  destruct (ole_send_loop _ _ _ _ _ _). apply io_only_rbind; [apply io_send_bns|]. intros _. cbn. split; [reflexivity|].
  apply io_only_rbind; [apply IH|]. intro. exact I.
Qed.
Lemma io_ole_recv ccrh q bl : forall ins raw, io_only (p_ole_recv ccrh q bl raw ins).
Proof.
  assert (G : forall l out, io_only (p_ole_recv_loop ccrh q l out)).
  { induction l as [|[e [r b]] l IH]; intro out; cbn [p_ole_recv_loop]; [exact I|]. apply io_only_rbind; [apply io_recv_bn|]. intro. apply IH. }
  induction ins as [|x ins IH]; intros [|r raw]; cbn [p_ole_recv]; try exact I.
  apply io_only_rbind; [apply G|]. intro. apply io_only_rbind; [apply IH|]. intro. exact I.
Qed.
Lemma io_cc_ole ccrh q s Delta rows x : io_only (p_cc_ole ccrh q s Delta rows x).
Proof. unfold p_cc_ole. apply io_only_rbind; [destruct s; [apply io_ole_send|apply io_ole_recv]|]. intro. exact I. Qed.
Lemma io_cc_recv {C : Curve} ccrh ccrh_o hash prg (h : pt (cgrp C)) q bs r rnds rnd_r yseed buf sends Delta rows bMACs :
  io_only (p_cc_recv ccrh ccrh_o hash prg h q bs r rnds rnd_r yseed buf sends Delta rows bMACs).
Proof.
  assert (P : forall (Ps : list (pt (cgrp C))) b, io_only (p_send_points b Ps)) by (induction Ps; intro b; cbn; auto).
  assert (L : forall (A B : Type) (x : res A) (f : A -> proc (res B)), (forall a, io_only (f a)) -> io_only (rbind (local x) f))
    by (intros; apply io_only_rbind; [exact I|assumption]).
  assert (O : forall com msg, io_only (p_cc_open ccrh hash q com msg bMACs)).
  { intros com msg. unfold p_cc_open. cbn [io_only]. split; [reflexivity|]. intro s1. split; [reflexivity|]. intro s2.
    apply io_only_rbind; [apply io_recv_bn|]. intro. apply L. intro. apply L. intro. cbv zeta. destruct (existsb _ _); [exact I|].
    apply L. intro. exact I. }
  unfold p_cc_recv. apply io_only_rbind.
  - unfold p_cc_recv_head. destruct (negb _); [exact I|]. cbn [io_only]. split; [reflexivity|]. intro com.
    apply io_only_rbind; [apply io_cc_ole|]. intro. apply io_only_rbind; [apply io_recv_arrs|]. intro. cbv zeta.
    apply L. intro. apply L. intro. apply L. intro. destruct (negb _); [exact I|].
    apply io_only_rbind; [apply P|]. intro. apply L. intro. apply L. intro. apply L. intro. cbn [io_only]. split; [reflexivity|].
    apply io_only_rbind; [apply io_send_bn|]. intro. apply io_only_rbind; [apply io_send_bn|]. intro.
    apply io_only_rbind; [apply O|]. intro. exact I.
  - intros [[com y] b]. unfold p_cc_recv_tail. cbn [io_only]. split; [reflexivity|]. apply io_only_rbind; [apply io_send_bn|]. intro. exact I.
Qed.

(** * The whole exchange *)
Lemma lconv_bind_end {A B D} (p : proc A) (q : proc B) (f : B -> proc D) a b d s t : lconv p q a b s t -> f b = Ret d ->
  lconv p (pbind q f) a d s t.
Proof.
  intros H E la lb. destruct (H la lb) as [n K]. exists n.
  assert (G : forall n X Y Z (f : Y -> proc Z) (p : proc X) (q : proc Y) s t p' q' s' t', abs_steps n (mkA p q s t) (mkA p' q' s' t') ->
     abs_steps n (mkA p (pbind q f) s t) (mkA p' (pbind q' f) s' t')).
  { clear. induction n as [|n IH]; intros X Y Z f p q s t p' q' s' t' H; inversion H as [x E1 E2|m x y z S1 S2 E1 E2 E3]; subst; [constructor|].
    destruct y as [p1 q1 s1 t1]. apply (IH X Y Z f) in S2. econstructor; [|exact S2].
    inversion S1; subst; [now apply AbsA|]. apply AbsB. now apply astep_bind. }
  eapply abs_peq; [|apply peq_refl|apply logged_bind].
  assert (X := G n _ _ _ (fun r => logged (f (fst r)) (snd r)) _ _ _ _ _ _ _ _ K).
  cbn [pbind fst snd] in X. rewrite E in X. exact X.
Qed.
Lemma local_ok {A B} (a : A) (f : A -> proc (res B)) : rbind (local (Ok a)) f = f a.
Proof. reflexivity. Qed.

Section RUN.
Variables (ccrh ccrh_o : N -> N) (hash : list N -> list N) (prg : N -> nat -> nat -> list N).
Context {C : Curve}.
Notation point := (pt (cgrp C)).
Notation q := (order (cgrp C)).
Notation "a == b" := (cong q a b) (at level 70).
Variable h : point.
Hypothesis A : annihilates C.
Hypothesis Hq : bound1000 q.
Hypothesis hash_len : forall m, length (hash m) = DIGEST_SIZE.
(** Pa's values *)
Variables (bs : nat) (seed bDelta : N) (aDelta : Z) (sends : bool) (Delta : N) (row : list N) (bKEYs : list N).
Hypothesis Hbs : (1 <= bs)%nat.
Hypothesis Hsz : 2 ^ Z.of_nat bs - 1 < q.
Hypothesis HbD : (bDelta < 2 ^ 128)%N.
Hypothesis OD : N.odd bDelta = true.
Hypothesis FK : Forall (fun k => N.odd k = false) bKEYs.
Hypothesis Hs : (seed < 2 ^ 128)%N.
Hypothesis Ra : 0 <= aDelta < q.
Hypothesis Lrow : length row = BN_num_bits q.
Let cl := ((length bKEYs + bs - 1) / bs)%nat.
(** Pb's values *)
Record pb_vals : Type := { pb_r : Z; pb_rnds : list Z; pb_rnd_r : Z; pb_yseed : N; pb_buf : list N }.
Definition pb_ok (v : pb_vals) : Prop :=
  0 <= pb_r v < q /\ length (pb_rnds v) = cl /\ (pb_yseed v < 2 ^ 128)%N /\ length (pb_buf v) = 65%nat.

(** what is exchanged, as a function of Pa's values, of the bits, of Pb's values and of the OLE output of Pa *)
Definition v_com : list N :=
  hash (bytes_of_block seed ++ bytes_of_block bDelta ++ u32_bytes (N.of_nat (length (BN_bn2bin aDelta))) ++ BN_bn2bin aDelta).
Definition v_msgs1 : list Z := map fst (cc_convert ccrh q bDelta aDelta bKEYs).
Definition v_coms (bits : list bool) (v : pb_vals) : list point :=
  map2 (pc_commit h) (pb_rnds v) (map (chunk_val bits bs) (seq 0 cl)).
Definition v_pts (bits : list bool) (v : pb_vals) : list N :=
  send_points (pb_buf v) (v_coms bits v ++ [pc_commit h (pb_rnd_r v) (pb_r v)]).
Definition v_chi (bits : list bool) (v : pb_vals) : list Z :=
  cc_chi prg q (hash ((v_com ++ hash (bn_hashed v_msgs1)) ++ v_pts bits v)) cl.
Definition v_rnd_y (bits : list bool) (v : pb_vals) : Z :=
  dot (v_chi bits v ++ [1]) (pb_rnds v ++ [pb_rnd_r v]) mod q.
Definition v_msg_y (bits : list bool) (v : pb_vals) : Z :=
  dot (v_chi bits v ++ [1]) (map (chunk_val bits bs) (seq 0 cl) ++ [pb_r v]) mod q.
Definition v_yKEY (Ks : list Z) (oa : Z) (bits : list bool) (v : pb_vals) : Z :=
  cc_lin q (q - oa) (combine (v_chi bits v) Ks).
Definition v_yMAC (Ks : list Z) (oa : Z) (bits : list bool) (v : pb_vals) : Z :=
  (v_yKEY Ks oa bits v + (v_msg_y bits v * aDelta) mod q) mod q.
Definition v_ycom (Ks : list Z) (oa : Z) (bits : list bool) (v : pb_vals) : list N :=
  hash (bytes_of_block (pb_yseed v) ++ BN_bn2bin (v_yMAC Ks oa bits v)).

Local Opaque bn_H BN_bn2bin BN_bin2bn send_bn recv_bn oct2point point2oct bytes_of_block block_of_bytes cc_convert u32_bytes bn_buf.
Notation macs bits := (map2 (mac_of bDelta) bKEYs bits).
Notation head_a := (p_cc_send_head ccrh ccrh_o hash prg h q bs seed bDelta aDelta sends Delta
                      (cc_rows q sends Delta [row] aDelta) (repeat pz cl) bKEYs).
Notation head_b := (fun v bits => p_cc_recv_head ccrh ccrh_o hash prg h q bs (pb_r v) (pb_rnds v) (pb_rnd_r v) (pb_yseed v) (pb_buf v)
                      sends Delta (cc_rows q (negb sends) Delta [row] (pb_r v)) (macs bits)).
Lemma q_pos : 0 < q.
Proof. destruct Hq. lia. Qed.
Lemma mod_in x : 0 <= x mod q < q.
Proof. apply Z.mod_pos_bound, q_pos. Qed.

Lemma keys_ok : exists Ks, cc_batches q (map snd (cc_convert ccrh q bDelta aDelta bKEYs)) bs cl = Ok Ks /\ length Ks = cl.
Proof.
  set (l := cc_convert ccrh q bDelta aDelta bKEYs).
  assert (Ll : length l = length bKEYs) by apply conv_len.
  set (bits := repeat false (length bKEYs)).
  assert (Lb : length bits = length bKEYs) by apply repeat_length.
  assert (Lml : length (macs bits) = length bKEYs) by now apply conv_macs_len.
  destruct (chunks_ok Hq aDelta (map snd l) (map2 (cc_mac ccrh q) (macs bits) (map fst l)) (macs bits) bits) with (bs := bs)
    as (Ks & Ms & EK & _ & _ & LK & _); auto; rewrite ?map2_length, ?map_length; try lia.
  { intros. eapply conv_rel; eauto. }
  { intros. eapply conv_lsb; eauto. }
  rewrite map_length, Ll in *. exists Ks. auto.
Qed.

Lemma head_run bits v Ks : length bits = length bKEYs -> pb_ok v ->
  cc_batches q (map snd (cc_convert ccrh q bDelta aDelta bKEYs)) bs cl = Ok Ks ->
  exists oa rMAC so to, 
    (0 <= oa < q /\ 0 <= rMAC < q /\ rMAC == pb_r v * aDelta - oa /\
     if sends then ole_send ccrh_o q (BN_num_bits q) Delta [row] [aDelta] = Ok ([oa], so) /\ to = []
     else ole_send ccrh_o q (BN_num_bits q) Delta [row] [pb_r v] = Ok ([rMAC], to) /\
          ole_recv ccrh_o q (BN_num_bits q) [cot_recv Delta row (ole_bits (BN_num_bits q) aDelta)] [aDelta] to = Ok ([oa], []) /\ so = []) /\
    lconv head_a (head_b v bits)
      (Ok (v_coms bits v, v_yKEY Ks oa bits v, v_ycom Ks oa bits v, v_msg_y bits v, true))
      (Ok (v_coms bits v, v_yMAC Ks oa bits v, true))
      (io (v_com ++ so ++ bns v_msgs1 ++ bytes_of_block seed ++ bytes_of_block bDelta ++ bn1 aDelta))
      (io (to ++ v_pts bits v ++ v_ycom Ks oa bits v ++ bn1 (v_rnd_y bits v) ++ bn1 (v_msg_y bits v))).
Proof.
  intros Lb (Rr & Lr & Hys & Lbuf) EKs. pose proof q_pos as Q0.
  destruct (lconv_cc_ole ccrh_o Hq sends Delta row aDelta (pb_r v) Lrow Ra Rr) as (oa & rMAC & so & to & LO & Roa & RrM & CO & OX).
  exists oa, rMAC, so, to. split; [split; [exact Roa|split; [exact RrM|split; [exact CO|exact OX]]]|].
  clear OX.
  set (bMACs := macs bits).
  set (l := cc_convert ccrh q bDelta aDelta bKEYs) in *.
  assert (Lml : length bMACs = length bKEYs) by now apply conv_macs_len.
  assert (Ll : length l = length bKEYs) by apply conv_len.
  assert (Fl : Forall (fun x => 0 <= x < q) (map fst l)) by now apply conv_range.
  assert (Ffl : Forall fits (map fst l)) by now apply (inq_fits q Hq).
  assert (EH : concat (map BN_bn2bin (map fst l)) = bn_hashed (map fst l)) by (unfold bn_hashed; symmetry; apply flat_map_concat_map).
  set (amacs := map2 (cc_mac ccrh q) bMACs (map fst l)). set (keys := map snd l) in *.
  assert (Lk : length keys = length bKEYs) by (unfold keys; now rewrite map_length).
  assert (Lm : length amacs = length bKEYs) by (unfold amacs; rewrite map2_length, map_length; lia).
  destruct (chunks_ok Hq aDelta keys amacs bMACs bits) with (bs := bs) as (Ks' & Ms & EK & EM & Emsg & LK & LM & FC); auto; try congruence.
  { intros. eapply conv_rel; eauto. }
  { intros. eapply conv_lsb; eauto. }
  rewrite Lk in *. fold cl in EK, EM, Emsg, LK, LM, FC.
  assert (Ks' = Ks) as -> by congruence. clear EK.
  set (msgs := map (chunk_val bits bs) (seq 0 cl)) in *.
  assert (Lmsgs : length msgs = cl) by (unfold msgs; now rewrite map_length, seq_length).
  unfold p_cc_send_head, p_cc_recv_head. unfold cc_size_ok. rewrite (proj2 (Z.ltb_lt _ _) Hsz). cbn [negb].
  unfold cc_hash at 1. rewrite (arr_small Hq) by auto. rewrite local_ok. fold v_com.
  apply lconv_sr; [apply hash_len|].
  apply (lconv_seq _ _ _ _ oa rMAC _ _ so to); [exact LO|]. cbv zeta. fold l.
  change (io (v_pts bits v ++ ?x)) with (io ([] ++ v_pts bits v ++ x)).
  apply (lconv_seq _ _ _ _ tt (map BN_bn2bin (map fst l)) _ _ (bns v_msgs1) []); [apply (lconv_arrs_sr (map fst l)); [exact Ffl|now rewrite map_length, Ll, Lml]|].
  rewrite (map_bin (map fst l)) by exact Fl. rewrite EH. fold amacs. fold keys.
  unfold cc_chunk_len. rewrite Lml. destruct (Nat.eqb_spec bs 0) as [X|_]; [lia|]. fold cl. rewrite !local_ok.
  rewrite EKs, Emsg, EM, !local_ok. rewrite repeat_length, Nat.eqb_refl, Lr, Nat.eqb_refl. cbn [negb].
  change (map2 (pc_commit h) (pb_rnds v) msgs) with (v_coms bits v). fold (v_pts bits v).
  change (io (bytes_of_block seed ++ ?x)) with (io ([] ++ bytes_of_block seed ++ x)).
  assert (Lcom : length (v_coms bits v) = cl) by (unfold v_coms; rewrite map2_length; fold msgs; lia).
  eapply (lconv_seq _ _ _ _ _ tt _ _ [] (v_pts bits v)).
  { replace (repeat pz cl ++ [EC_POINT_new]) with (repeat (@pz (cgrp C)) (cl + 1)) by now rewrite repeat_app.
    apply lconv_points; [exact Lbuf|]. rewrite app_length, Lcom. reflexivity. }
  cbv beta iota zeta. fold (v_pts bits v). change (map fst l) with v_msgs1. fold (v_chi bits v).
  assert (Lchi : length (v_chi bits v) = cl) by (unfold v_chi, cc_chi; now rewrite map_length, seq_length).
  rewrite linear_com_ok by (rewrite !app_length; cbn [length]; lia). rewrite local_ok.
  rewrite !linear_rand_ok by (auto; rewrite !app_length; cbn [length]; lia). rewrite !local_ok.
  fold (v_rnd_y bits v). change (dot (v_chi bits v ++ [1]) (msgs ++ [pb_r v]) mod q) with (v_msg_y bits v).
  assert (Rry : 0 <= v_rnd_y bits v < q) by apply mod_in.
  assert (Rmy : 0 <= v_msg_y bits v < q) by apply mod_in.
  assert (EY : cc_lin q rMAC (combine (v_chi bits v) Ms) = v_yMAC Ks oa bits v).
  { apply (cong_small q); [now apply lin_range|apply mod_in|]. unfold v_yMAC, v_yKEY. rewrite !mod_cong.
    rewrite !lin_cong. rewrite !combine_fst, !combine_snd by lia.
    unfold v_msg_y. fold msgs. rewrite mod_cong. rewrite dot_app by lia. cbn [dot].
    rewrite (dot_cong q aDelta (v_chi bits v) Ks Ms msgs) by (auto; lia).
    rewrite CO. generalize (dot (v_chi bits v) Ks) (dot (v_chi bits v) msgs). intros u w. exists (-1). ring. }
  rewrite EY. assert (Ry : 0 <= v_yMAC Ks oa bits v < q) by apply mod_in.
  unfold cc_ymac_com. rewrite (arr_small Hq) by auto. rewrite local_ok. fold (v_ycom Ks oa bits v).
  apply lconv_rs; [apply hash_len|].
  apply lconv_bn_rs; [now apply (bound_fits q)|lia|].
  rewrite <- (app_nil_r (bn1 (v_msg_y bits v))).
  apply lconv_bn_rs; [now apply (bound_fits q)|lia|].
  assert (OC : pc_open_check h (lincomb (v_chi bits v ++ [1]) (v_coms bits v ++ [pc_commit h (pb_rnd_r v) (pb_r v)])) (v_rnd_y bits v) (v_msg_y bits v) = true).
  { apply pc_open_iff. unfold v_coms. fold msgs.
    replace (map2 (pc_commit h) (pb_rnds v) msgs ++ [pc_commit h (pb_rnd_r v) (pb_r v)])
      with (map2 (pc_commit h) (pb_rnds v ++ [pb_rnd_r v]) (msgs ++ [pb_r v])) by (rewrite map2_app by lia; reflexivity).
    rewrite lincomb_commit by (rewrite !app_length; cbn [length]; lia).
    unfold v_rnd_y, v_msg_y. fold msgs. now rewrite !smul_mod by exact A. }
  rewrite OC. rewrite firstn_exact by exact Lcom. fold (v_yKEY Ks oa bits v).
  unfold rbind at 2. eapply (lconv_bind_end _ _ _ _ (Ok true)); [|reflexivity].
  unfold p_cc_open.
  apply lconv_sr; [apply block_len|]. apply lconv_sr; [apply block_len|]. cbv zeta. rewrite !block_round by auto.
  rewrite <- (app_nil_r (bn1 aDelta)).
  apply lconv_bn_sr; [now apply (bound_fits q)|lia|].
  unfold cc_hash. rewrite (arr_small Hq) by auto. rewrite local_ok. fold v_com.
  rewrite (strncmp0_refl' DIGEST_SIZE v_com) by apply hash_len. rewrite local_ok.
  unfold bMACs at 1 2. rewrite conv_back by auto. fold l.
  assert (EX : existsb (fun m => (bn_buf <? length (BN_bn2bin m))%nat) (map fst l) = false).
  { clear -Fl Hq. induction Fl as [|x t Hx _ IH]; [reflexivity|]. cbn [existsb]. rewrite IH, (arr_small Hq) by auto. reflexivity. }
  rewrite EX. change (map fst l) with v_msgs1. rewrite (strncmp0_refl' DIGEST_SIZE (hash (bn_hashed v_msgs1))) by apply hash_len. rewrite local_ok.
  apply lconv_end.
Qed.

Notation prog_a := (p_cc_send ccrh ccrh_o hash prg h q bs seed bDelta aDelta sends Delta
                      (cc_rows q sends Delta [row] aDelta) (repeat pz cl) bKEYs).
Notation prog_b := (fun v bits => p_cc_recv ccrh ccrh_o hash prg h q bs (pb_r v) (pb_rnds v) (pb_rnd_r v) (pb_yseed v) (pb_buf v)
                      sends Delta (cc_rows q (negb sends) Delta [row] (pb_r v)) (macs bits)).
Notation prog_bf := (fun v bits => p_cc_recv_flushed ccrh ccrh_o hash prg h q bs (pb_r v) (pb_rnds v) (pb_rnd_r v) (pb_yseed v) (pb_buf v)
                      sends Delta (cc_rows q (negb sends) Delta [row] (pb_r v)) (macs bits)).
Lemma tail_run bits v Ks oa : pb_ok v ->
  lconv (p_cc_send_tail hash q aDelta (v_coms bits v, v_yKEY Ks oa bits v, v_ycom Ks oa bits v, v_msg_y bits v, true))
        (p_cc_recv_tail (pb_yseed v) (v_coms bits v, v_yMAC Ks oa bits v, true))
    (Ok (v_coms bits v, true)) (Ok (v_coms bits v, true)) (io []) (io (bytes_of_block (pb_yseed v) ++ bn1 (v_yMAC Ks oa bits v))).
Proof.
  intros (Rr & Lr & Hys & Lbuf). unfold p_cc_send_tail, p_cc_recv_tail.
  assert (Ry : 0 <= v_yMAC Ks oa bits v < q) by apply mod_in.
  apply lconv_rs; [apply block_len|]. rewrite <- (app_nil_r (bn1 _)). apply lconv_bn_rs; [now apply (bound_fits q)|lia|].
  rewrite block_round by exact Hys. unfold cc_ymac_com. rewrite (arr_small Hq) by auto. rewrite local_ok.
  change (hash (bytes_of_block (pb_yseed v) ++ BN_bn2bin (v_yMAC Ks oa bits v))) with (v_ycom Ks oa bits v).
  assert (Ly : length (v_ycom Ks oa bits v) = DIGEST_SIZE) by apply hash_len.
  rewrite (proj2 (memcmp0_true DIGEST_SIZE (v_ycom Ks oa bits v) (v_ycom Ks oa bits v) Ly Ly) eq_refl), local_ok. cbv zeta.
  change (BN_mod_add (v_yKEY Ks oa bits v) (BN_mod_mul (v_msg_y bits v) aDelta q) q) with (v_yMAC Ks oa bits v).
  rewrite Z.eqb_refl. apply lconv_end.
Qed.
Lemma wp_recv_points (old : list point) : forall d (Q : res (list point * list N) -> flags -> Prop), old <> [] ->
  (forall r, Q r (false, false)) -> wp (p_recv_points old) (d, false) Q.
Proof.
  induction old as [|P old IH]; intros d Q N H; [congruence|]. cbn [p_recv_points wp]. split; [reflexivity|]. intros buf _. cbv zeta.
  apply wp_rbind. destruct old as [|P' old].
  - cbn. apply H.
  - apply IH; [discriminate|]. intros [[Ps hs]| |]; cbn; apply H.
Qed.
Lemma wp_a : disciplined prog_a.
Proof.
  destruct keys_ok as (Ks & EK & LK).
  unfold disciplined, p_cc_send, p_cc_send_head. apply wp_rbind.
  unfold cc_size_ok. rewrite (proj2 (Z.ltb_lt _ _) Hsz). cbn [negb].
  unfold cc_hash. rewrite (arr_small Hq) by auto. rewrite local_ok. cbn [wp fset snd fst].
  apply wp_rbind, wp_cc_ole; [exact Hq|exact Lrow|]. intros [oa| |]; [|reflexivity|reflexivity].
  apply wp_rbind. apply wp_send_bns; [apply (inq_fits q Hq); now apply conv_range|]. intros [d e] E. cbn in E. subst e.
  unfold cc_chunk_len. destruct (Nat.eqb_spec bs 0) as [X|_]; [lia|]. rewrite local_ok. fold cl. rewrite EK, local_ok.
  rewrite repeat_length, Nat.eqb_refl. cbn [negb].
  apply wp_rbind, wp_recv_points; [now destruct (repeat pz cl)|]. intros [[Ps hs]| |]; [|reflexivity|reflexivity]. cbv zeta.
  apply wp_rbind. unfold local. cbn [wp]. destruct (pc_linear_comb_com _ _) as [com_y| |]; [|reflexivity|reflexivity].
  cbn [wp]. split; [reflexivity|]. intros ycom _.
  apply wp_rbind, wp_recv_bn; [reflexivity|]. intros [rnd_y| |]; [|reflexivity|reflexivity].
  apply wp_rbind, wp_recv_bn; [reflexivity|]. intros [msg_y| |]; [|reflexivity|reflexivity].
  cbn [wp fset fst snd]. apply wp_rbind, wp_send_bn; [now apply (bound_fits q)|]. cbn [wp fset fst snd].
  unfold p_cc_send_tail. cbn [wp]. split; [reflexivity|]. intros sb _. cbn [fset fst snd].
  apply wp_rbind, wp_recv_bn; [reflexivity|]. intros [yMAC| |]; [|reflexivity|reflexivity]. cbn [fset fst snd].
  apply wp_rbind. cbn [local wp]. destruct (cc_ymac_com _ _ _) as [y| |]; [|reflexivity|reflexivity].
  apply wp_rbind. cbn [local wp]. destruct (memcmp0 _ _ _) as [m| |]; reflexivity.
Qed.
(** under every schedule both parties return with the commitments and the verdict true, provided the
    MAC holder's channel is flushed afterwards; Pa receives exactly these bytes *)
Theorem cc_runs bits v Ks : length bits = length bKEYs -> pb_ok v ->
  cc_batches q (map snd (cc_convert ccrh q bDelta aDelta bKEYs)) bs cl = Ok Ks ->
  exists oa rMAC so to sb,
    (0 <= oa < q /\ 0 <= rMAC < q /\ rMAC == pb_r v * aDelta - oa /\
     if sends then ole_send ccrh_o q (BN_num_bits q) Delta [row] [aDelta] = Ok ([oa], so) /\ to = []
     else ole_send ccrh_o q (BN_num_bits q) Delta [row] [pb_r v] = Ok ([rMAC], to) /\
          ole_recv ccrh_o q (BN_num_bits q) [cot_recv Delta row (ole_bits (BN_num_bits q) aDelta)] [aDelta] to = Ok ([oa], []) /\ so = []) /\
    runs_with_views prog_a (prog_bf v bits) (Ok (v_coms bits v, true)) (Ok (v_coms bits v, true))
      (io (to ++ v_pts bits v ++ v_ycom Ks oa bits v ++ bn1 (v_rnd_y bits v) ++ bn1 (v_msg_y bits v) ++
           bytes_of_block (pb_yseed v) ++ bn1 (v_yMAC Ks oa bits v)))
      sb.
Proof.
  intros Lb V EK. destruct (head_run bits v Ks Lb V EK) as (oa & rMAC & so & to & F & L).
  exists oa, rMAC, so, to. eexists. split; [exact F|].
  apply lconv_runs; [exact wp_a|apply io_only_flush, io_cc_recv|].
  assert (T := lconv_seq (p_cc_send_tail hash q aDelta) (p_cc_recv_tail (pb_yseed v)) _ _ _ _ _ _ _ _ _ _ L (tail_run bits v Ks oa V)).
  rewrite <- !app_assoc in T. apply lconv_flush_end. exact T.
Qed.
Theorem cc_completes bits v : length bits = length bKEYs -> pb_ok v ->
  always_completes prog_a (prog_bf v bits) (Ok (v_coms bits v, true)) (Ok (v_coms bits v, true)).
Proof.
  intros Lb V. destruct keys_ok as (Ks & EK & _). destruct (head_run bits v Ks Lb V EK) as (oa & rMAC & so & to & _ & L).
  assert (T := lconv_flush_end _ _ _ _ _ _
    (lconv_seq (p_cc_send_tail hash q aDelta) (p_cc_recv_tail (pb_yseed v)) _ _ _ _ _ _ _ _ _ _ L (tail_run bits v Ks oa V))).
  destruct (unlog _ _ _ _ _ _ T) as [n K]. exact (completes _ _ _ _ n wp_a (io_only_flush _ (io_cc_recv _ _ _ _ _ _ _ _ _ _ _ _ _ _ _ _)) K).
Qed.
(** without that flush the key holder may wait for ever *)
Theorem cc_unflushed bits v : length bits = length bKEYs -> pb_ok v -> can_deadlock prog_a (prog_b v bits).
Proof.
  intros Lb V. destruct keys_ok as (Ks & EK & LK). destruct (head_run bits v Ks Lb V EK) as (oa & rMAC & so & to & _ & L).
  assert (CV : conv head_a (head_b v bits)
      (Ok (v_coms bits v, v_yKEY Ks oa bits v, v_ycom Ks oa bits v, v_msg_y bits v, true))
      (Ok (v_coms bits v, v_yMAC Ks oa bits v, true))).
  { exact (unlog _ _ _ _ _ _ L). }
  unfold p_cc_send, p_cc_recv. eapply deadlock_after; [exact CV|].
  unfold p_cc_send_tail, p_cc_recv_tail. apply unflushed_deadlock; [|discriminate].
  cbn [only_sends]. apply only_sends_bind; [|intros [?| |]; exact I].
  unfold p_send_bn. destruct (_ <? _)%nat; exact I.
Qed.

(** * A key holder that gives the OLE another number *)
Definition w_yMAC (x : Z) (Ks : list Z) (oa : Z) (bits : list bool) (v : pb_vals) : Z :=
  (v_yKEY Ks oa bits v + dot (v_chi bits v) (map (chunk_val bits bs) (seq 0 cl)) * aDelta + pb_r v * x) mod q.
Definition w_ycom (x : Z) (Ks : list Z) (oa : Z) (bits : list bool) (v : pb_vals) : list N :=
  hash (bytes_of_block (pb_yseed v) ++ BN_bn2bin (w_yMAC x Ks oa bits v)).
Lemma cheat_head_run x bits v Ks : 0 <= x < q -> length bits = length bKEYs -> pb_ok v ->
  cc_batches q (map snd (cc_convert ccrh q bDelta aDelta bKEYs)) bs cl = Ok Ks ->
  exists oa so to,
    lconv (cheat_head ccrh ccrh_o hash prg h q x bs seed bDelta aDelta sends Delta (cc_rows q sends Delta [row] x) (repeat pz cl) bKEYs)
      (head_b v bits)
      (Ok (v_chi bits v, v_yKEY Ks oa bits v, v_msg_y bits v))
      (Ok (v_coms bits v, w_yMAC x Ks oa bits v, true))
      (io (v_com ++ so ++ bns v_msgs1 ++ bytes_of_block seed ++ bytes_of_block bDelta ++ bn1 aDelta))
      (io (to ++ v_pts bits v ++ w_ycom x Ks oa bits v ++ bn1 (v_rnd_y bits v) ++ bn1 (v_msg_y bits v))).
Proof.
  intros Rx Lb (Rr & Lr & Hys & Lbuf) EKs. pose proof q_pos as Q0.
  destruct (lconv_cc_ole ccrh_o Hq sends Delta row x (pb_r v) Lrow Rx Rr) as (oa & rMAC & so & to & LO & Roa & RrM & CO & OX).
  exists oa, so, to. clear OX.
  set (bMACs := macs bits).
  set (l := cc_convert ccrh q bDelta aDelta bKEYs) in *.
  assert (Lml : length bMACs = length bKEYs) by now apply conv_macs_len.
  assert (Ll : length l = length bKEYs) by apply conv_len.
  assert (Fl : Forall (fun x => 0 <= x < q) (map fst l)) by now apply conv_range.
  assert (Ffl : Forall fits (map fst l)) by now apply (inq_fits q Hq).
  assert (EH : concat (map BN_bn2bin (map fst l)) = bn_hashed (map fst l)) by (unfold bn_hashed; symmetry; apply flat_map_concat_map).
  set (amacs := map2 (cc_mac ccrh q) bMACs (map fst l)). set (keys := map snd l) in *.
  assert (Lk : length keys = length bKEYs) by (unfold keys; now rewrite map_length).
  assert (Lm : length amacs = length bKEYs) by (unfold amacs; rewrite map2_length, map_length; lia).
  destruct (chunks_ok Hq aDelta keys amacs bMACs bits) with (bs := bs) as (Ks' & Ms & EK & EM & Emsg & LK & LM & FC); auto; try congruence.
  { intros. eapply conv_rel; eauto. }
  { intros. eapply conv_lsb; eauto. }
  rewrite Lk in *. fold cl in EK, EM, Emsg, LK, LM, FC.
  assert (Ks' = Ks) as -> by congruence. clear EK.
  set (msgs := map (chunk_val bits bs) (seq 0 cl)) in *.
  assert (Lmsgs : length msgs = cl) by (unfold msgs; now rewrite map_length, seq_length).
  unfold cheat_head, p_cc_recv_head. unfold cc_size_ok. rewrite (proj2 (Z.ltb_lt _ _) Hsz). cbn [negb].
  unfold cc_hash at 1. rewrite (arr_small Hq) by auto. rewrite local_ok. fold v_com.
  apply lconv_sr; [apply hash_len|].
  apply (lconv_seq _ _ _ _ oa rMAC _ _ so to); [exact LO|]. cbv zeta. fold l.
  change (io (v_pts bits v ++ ?x)) with (io ([] ++ v_pts bits v ++ x)).
  apply (lconv_seq _ _ _ _ tt (map BN_bn2bin (map fst l)) _ _ (bns v_msgs1) []); [apply (lconv_arrs_sr (map fst l)); [exact Ffl|now rewrite map_length, Ll, Lml]|].
  rewrite (map_bin (map fst l)) by exact Fl. rewrite EH. fold amacs. fold keys.
  unfold cc_chunk_len. rewrite Lml. destruct (Nat.eqb_spec bs 0) as [X|_]; [lia|]. fold cl. rewrite !local_ok.
  rewrite EKs, Emsg, EM, !local_ok. rewrite repeat_length, Nat.eqb_refl, Lr, Nat.eqb_refl. cbn [negb].
  change (map2 (pc_commit h) (pb_rnds v) msgs) with (v_coms bits v). fold (v_pts bits v).
  change (io (bytes_of_block seed ++ ?x)) with (io ([] ++ bytes_of_block seed ++ x)).
  assert (Lcom : length (v_coms bits v) = cl) by (unfold v_coms; rewrite map2_length; fold msgs; lia).
  eapply (lconv_seq _ _ _ _ _ tt _ _ [] (v_pts bits v)).
  { replace (repeat pz cl ++ [EC_POINT_new]) with (repeat (@pz (cgrp C)) (cl + 1)) by now rewrite repeat_app.
    apply lconv_points; [exact Lbuf|]. rewrite app_length, Lcom. reflexivity. }
  cbv beta iota zeta. fold (v_pts bits v). change (map fst l) with v_msgs1. fold (v_chi bits v).
  assert (Lchi : length (v_chi bits v) = cl) by (unfold v_chi, cc_chi; now rewrite map_length, seq_length).
  rewrite linear_com_ok by (rewrite !app_length; cbn [length]; lia). rewrite local_ok.
  rewrite !linear_rand_ok by (auto; rewrite !app_length; cbn [length]; lia). rewrite !local_ok.
  fold (v_rnd_y bits v). change (dot (v_chi bits v ++ [1]) (msgs ++ [pb_r v]) mod q) with (v_msg_y bits v).
  assert (Rry : 0 <= v_rnd_y bits v < q) by apply mod_in.
  assert (Rmy : 0 <= v_msg_y bits v < q) by apply mod_in.
  assert (EY : cc_lin q rMAC (combine (v_chi bits v) Ms) = w_yMAC x Ks oa bits v).
  { apply (cong_small q); [now apply lin_range|apply mod_in|]. unfold w_yMAC, v_yKEY. rewrite !mod_cong.
    rewrite !lin_cong. rewrite !combine_fst, !combine_snd by lia.
    rewrite (dot_cong q aDelta (v_chi bits v) Ks Ms msgs) by (auto; lia).
    rewrite CO. fold msgs. generalize (dot (v_chi bits v) Ks) (dot (v_chi bits v) msgs). intros u w. exists (-1). ring. }
  rewrite EY. assert (Ry : 0 <= w_yMAC x Ks oa bits v < q) by apply mod_in.
  unfold cc_ymac_com. rewrite (arr_small Hq) by auto. rewrite local_ok. fold (w_ycom x Ks oa bits v).
  apply lconv_rs; [apply hash_len|].
  apply lconv_bn_rs; [now apply (bound_fits q)|lia|].
  rewrite <- (app_nil_r (bn1 (v_msg_y bits v))).
  apply lconv_bn_rs; [now apply (bound_fits q)|lia|].
  fold (v_yKEY Ks oa bits v).
  unfold rbind at 2. eapply (lconv_bind_end _ _ _ _ (Ok true)); [|reflexivity].
  unfold p_cc_open.
  apply lconv_sr; [apply block_len|]. apply lconv_sr; [apply block_len|]. cbv zeta. rewrite !block_round by auto.
  rewrite <- (app_nil_r (bn1 aDelta)).
  apply lconv_bn_sr; [now apply (bound_fits q)|lia|].
  unfold cc_hash. rewrite (arr_small Hq) by auto. rewrite local_ok. fold v_com.
  rewrite (strncmp0_refl' DIGEST_SIZE v_com) by apply hash_len. rewrite local_ok.
  unfold bMACs at 1 2. rewrite conv_back by auto. fold l.
  assert (EX : existsb (fun m => (bn_buf <? length (BN_bn2bin m))%nat) (map fst l) = false).
  { clear -Fl Hq. induction Fl as [|x t Hx _ IH]; [reflexivity|]. cbn [existsb]. rewrite IH, (arr_small Hq) by auto. reflexivity. }
  rewrite EX. change (map fst l) with v_msgs1. rewrite (strncmp0_refl' DIGEST_SIZE (hash (bn_hashed v_msgs1))) by apply hash_len. rewrite local_ok.
  apply lconv_end.
Qed.

Lemma cheat_tail_run {R} x (dec : list Z -> Z -> R) bits v Ks oa : pb_ok v ->
  lconv (cheat_tail q x dec (v_chi bits v, v_yKEY Ks oa bits v, v_msg_y bits v))
        (p_cc_recv_tail (pb_yseed v) (v_coms bits v, w_yMAC x Ks oa bits v, true))
    (Ok (dec (v_chi bits v) ((dot (v_chi bits v) (map (chunk_val bits bs) (seq 0 cl)) * (aDelta - x)) mod q)))
    (Ok (v_coms bits v, true)) (io []) (io (bytes_of_block (pb_yseed v) ++ bn1 (w_yMAC x Ks oa bits v))).
Proof.
  intros (Rr & Lr & Hys & Lbuf). unfold cheat_tail, p_cc_recv_tail. pose proof q_pos as Q0.
  assert (Ry : 0 <= w_yMAC x Ks oa bits v < q) by apply mod_in.
  apply lconv_rs; [apply block_len|]. rewrite <- (app_nil_r (bn1 _)). apply lconv_bn_rs; [now apply (bound_fits q)|lia|].
  replace ((w_yMAC x Ks oa bits v - (v_yKEY Ks oa bits v + v_msg_y bits v * x)) mod q)
    with ((dot (v_chi bits v) (map (chunk_val bits bs) (seq 0 cl)) * (aDelta - x)) mod q); [apply lconv_end|].
  apply cong_iff; [lia|]. unfold w_yMAC, v_msg_y. rewrite !mod_cong.
  rewrite dot_app by (unfold v_chi, cc_chi; now rewrite !map_length, !seq_length). cbn [dot].
  generalize (v_yKEY Ks oa bits v) (dot (v_chi bits v) (map (chunk_val bits bs) (seq 0 cl))). intros. cring.
Qed.
Lemma wp_cheat {R} x (dec : list Z -> Z -> R) :
  disciplined (p_cc_cheat ccrh ccrh_o hash prg h q x dec bs seed bDelta aDelta sends Delta (cc_rows q sends Delta [row] x) (repeat pz cl) bKEYs).
Proof.
  destruct keys_ok as (Ks & EK & LK).
  unfold disciplined, p_cc_cheat, cheat_head. apply wp_rbind.
  unfold cc_size_ok. rewrite (proj2 (Z.ltb_lt _ _) Hsz). cbn [negb].
  unfold cc_hash. rewrite (arr_small Hq) by auto. rewrite local_ok. cbn [wp fset snd fst].
  apply wp_rbind, wp_cc_ole; [exact Hq|exact Lrow|]. intros [oa| |]; [|reflexivity|reflexivity].
  apply wp_rbind. apply wp_send_bns; [apply (inq_fits q Hq); now apply conv_range|]. intros [d e] E. cbn in E. subst e.
  unfold cc_chunk_len. destruct (Nat.eqb_spec bs 0) as [X|_]; [lia|]. rewrite local_ok. fold cl. rewrite EK, local_ok.
  rewrite repeat_length, Nat.eqb_refl. cbn [negb].
  apply wp_rbind, wp_recv_points; [now destruct (repeat pz cl)|]. intros [[Ps hs]| |]; [|reflexivity|reflexivity]. cbv zeta.
  apply wp_rbind. unfold local. cbn [wp]. destruct (pc_linear_comb_com _ _) as [com_y| |]; [|reflexivity|reflexivity].
  cbn [wp]. split; [reflexivity|]. intros ycom _.
  apply wp_rbind, wp_recv_bn; [reflexivity|]. intros [rnd_y| |]; [|reflexivity|reflexivity].
  apply wp_rbind, wp_recv_bn; [reflexivity|]. intros [msg_y| |]; [|reflexivity|reflexivity].
  cbn [wp fset fst snd]. apply wp_rbind, wp_send_bn; [now apply (bound_fits q)|]. cbn [wp fset fst snd].
  unfold cheat_tail. cbn [wp]. split; [reflexivity|]. intros sb _. cbn [fset fst snd].
  apply wp_rbind, wp_recv_bn; [reflexivity|]. intros [yMAC| |]; reflexivity.
Qed.
(** the MAC holder accepts, and the other party obtains the combination of the messages *)
Theorem cheat_runs {R} x (dec : list Z -> Z -> R) bits v : 0 <= x < q -> length bits = length bKEYs -> pb_ok v ->
  exists va vb, runs_with_views
    (p_cc_cheat ccrh ccrh_o hash prg h q x dec bs seed bDelta aDelta sends Delta (cc_rows q sends Delta [row] x) (repeat pz cl) bKEYs)
    (prog_bf v bits)
    (Ok (dec (v_chi bits v) ((dot (v_chi bits v) (map (chunk_val bits bs) (seq 0 cl)) * (aDelta - x)) mod q)))
    (Ok (v_coms bits v, true)) va vb.
Proof.
  intros Rx Lb V. destruct keys_ok as (Ks & EK & LK). destruct (cheat_head_run x bits v Ks Rx Lb V EK) as (oa & so & to & L).
  eexists _, _. apply lconv_runs; [apply wp_cheat|apply io_only_flush, io_cc_recv|].
  apply lconv_flush_end. exact (lconv_seq (cheat_tail q x dec) (p_cc_recv_tail (pb_yseed v)) _ _ _ _ _ _ _ _ _ _ L (cheat_tail_run x dec bits v Ks oa V)).
Qed.
End RUN.
