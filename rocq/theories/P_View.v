(** Runs of two programs together with what each of them received. *)
From Coq Require Import List NArith Bool Arith Lia.
From Verif Require Import L_Res S_Sched S_View M_Exch P_Sched P_Exch.
Import ListNotations.

Lemma more_nil b : more_in b nobufs = b.
Proof. destruct b as [x y]. unfold more_in. cbn. now rewrite !app_nil_r. Qed.
Lemma nil_more b : more_in nobufs b = b.
Proof. now destruct b. Qed.
Lemma more_assoc a b c : more_in (more_in a b) c = more_in a (more_in b c).
Proof. unfold more_in. cbn. now rewrite !app_assoc. Qed.
Lemma more_push l c x r : more_in (put l c (get l c ++ x)) r = more_in l (put r c (x ++ get r c)).
Proof. destruct l, r, c; unfold more_in; cbn; now rewrite app_assoc. Qed.

(** * Programs that behave alike *)
Inductive peq {A} : proc A -> proc A -> Prop :=
| PEret a : peq (Ret a) (Ret a)
| PEsend c bs p q : peq p q -> peq (Send c bs p) (Send c bs q)
| PEflush c p q : peq p q -> peq (Flush c p) (Flush c q)
| PErecv c n k l : (forall bs, peq (k bs) (l bs)) -> peq (Recv c n k) (Recv c n l).
Lemma peq_refl {A} (p : proc A) : peq p p.
Proof. induction p; constructor; auto. Qed.
Lemma logged_bind {A B} (f : A -> proc B) : forall p l,
  peq (pbind (logged p l) (fun r => logged (f (fst r)) (snd r))) (logged (pbind p f) l).
Proof. induction p; intro l; cbn; try constructor; auto. apply peq_refl. Qed.
Lemma astep_peq {A} (p p' q : proc A) so si so' si' : astep p so si p' so' si' -> peq p q ->
  exists q', astep q so si q' so' si' /\ peq p' q'.
Proof.
  destruct 1; inversion 1; subst; (eexists; split; [constructor|]); auto.
Qed.
Lemma abs_peq {A B} (a : A) (b : B) n : forall p q s t p' q', abs_steps n (mkA p q s t) (final a b) -> peq p p' -> peq q q' ->
  abs_steps n (mkA p' q' s t) (final a b).
Proof.
  induction n as [|n IH]; intros p q s t p' q' H P Q; inversion H as [x E1 E2|m x y z S1 S2 E1 E2 E3]; subst.
  - inversion P; inversion Q; subst. constructor.
  - inversion S1 as [p0 q0 s0 t0 p1 s1 t1 ST|p0 q0 s0 t0 q1 s1 t1 ST]; subst.
    + destruct (astep_peq _ _ _ _ _ _ _ ST P) as (p2 & K1 & K2). econstructor; [constructor; exact K1|]. eapply IH; eassumption.
    + destruct (astep_peq _ _ _ _ _ _ _ ST Q) as (q2 & K1 & K2). econstructor; [apply AbsB; exact K1|]. eapply IH; eassumption.
Qed.

(** * What was sent and received *)
(** [talk p i a o]: p reads exactly i, sends o and returns a *)
Inductive talk {A} : proc A -> bufs -> A -> bufs -> Prop :=
| TRet a : talk (Ret a) nobufs a nobufs
| TSend c bs p i a o : talk p i a o -> talk (Send c bs p) i a (put o c (bs ++ get o c))
| TFlush c p i a o : talk p i a o -> talk (Flush c p) i a o
| TRecv c k i a o bs : talk (k bs) i a o -> talk (Recv c (length bs) k) (put i c (bs ++ get i c)) a o.

Lemma run_talk {A B} (a : A) (b : B) n : forall p q s t, abs_steps n (mkA p q s t) (final a b) ->
  exists op oq, talk p (more_in t oq) a op /\ talk q (more_in s op) b oq /\
    forall la lb, abs_steps n (mkA (logged p la) (logged q lb) s t)
      (final (a, more_in la (more_in t oq)) (b, more_in lb (more_in s op))).
Proof.
  induction n as [|n IH]; intros p q s t H; inversion H as [x E1 E2|m x y z S1 S2 E1 E2 E3]; subst.
  - exists nobufs, nobufs. rewrite more_nil. split; [constructor|split; [constructor|]]. intros la lb. rewrite !more_nil. constructor.
  - inversion S1 as [p0 q0 s0 t0 p' s' t' ST|p0 q0 s0 t0 q' s' t' ST]; subst.
    + destruct (IH _ _ _ _ S2) as (op & oq & T1 & T2 & K). inversion ST; subst.
      * exists (put op c (bs ++ get op c)), oq. split; [now constructor|]. rewrite more_push in T2. split; [exact T2|].
        intros la lb. cbn [logged]. rewrite <- (more_push s). econstructor; [constructor; constructor|]. apply K.
      * exists op, oq. split; [now constructor|split; [exact T2|]]. intros la lb. econstructor; [constructor; constructor|]. apply K.
      * set (x := firstn n0 (get t c)) in *.
        assert (Ln : length x = n0) by (unfold x; rewrite firstn_length; lia).
        assert (Et : more_in t oq = put (more_in (put t c (skipn n0 (get t c))) oq) c (x ++ get (more_in (put t c (skipn n0 (get t c))) oq) c)).
        { apply bufs_ext. intro d. destruct (chan_dec c d) as [<-|N].
          - rewrite get_put_same, !get_more_in, get_put_same, app_assoc. unfold x. now rewrite firstn_skipn.
          - rewrite get_put_other, !get_more_in, get_put_other by exact N. reflexivity. }
        exists op, oq. split; [|split; [exact T2|]].
        { rewrite Et, <- Ln at 1. rewrite <- Ln. constructor. rewrite Ln. exact T1. }
        intros la lb. cbn [logged]. econstructor; [constructor; constructor; assumption|]. fold x.
        rewrite Et, <- more_push. apply K.
    + destruct (IH _ _ _ _ S2) as (op & oq & T1 & T2 & K). inversion ST; subst.
      * exists op, (put oq c (bs ++ get oq c)). rewrite more_push in T1. split; [exact T1|]. split; [now constructor|].
        intros la lb. cbn [logged]. rewrite <- (more_push t). econstructor; [apply AbsB; constructor|]. apply K.
      * exists op, oq. split; [exact T1|split; [now constructor|]]. intros la lb. econstructor; [apply AbsB; constructor|]. apply K.
      * set (x := firstn n0 (get s c)) in *.
        assert (Ln : length x = n0) by (unfold x; rewrite firstn_length; lia).
        assert (Et : more_in s op = put (more_in (put s c (skipn n0 (get s c))) op) c (x ++ get (more_in (put s c (skipn n0 (get s c))) op) c)).
        { apply bufs_ext. intro d. destruct (chan_dec c d) as [<-|N].
          - rewrite get_put_same, !get_more_in, get_put_same, app_assoc. unfold x. now rewrite firstn_skipn.
          - rewrite get_put_other, !get_more_in, get_put_other by exact N. reflexivity. }
        exists op, oq. split; [exact T1|split].
        { rewrite Et, <- Ln at 1. rewrite <- Ln. constructor. rewrite Ln. exact T2. }
        intros la lb. cbn [logged]. econstructor; [apply AbsB; constructor; assumption|]. fold x.
        rewrite Et, <- more_push. apply K.
Qed.

(** * Composition *)
(** p sends s, q sends t *)
Definition lconv {A B} (p : proc A) (q : proc B) (a : A) (b : B) (s t : bufs) : Prop :=
  forall la lb, conv (logged p la) (logged q lb) (a, more_in la t) (b, more_in lb s).
Lemma lconv_of_conv {A B} (p : proc A) (q : proc B) a b : conv p q a b ->
  exists s t, talk p t a s /\ talk q s b t /\ lconv p q a b s t.
Proof.
  intros [n H]. destruct (run_talk _ _ _ _ _ _ _ H) as (s & t & T1 & T2 & K). rewrite !nil_more in T1, T2.
  exists s, t. split; [exact T1|split; [exact T2|]]. intros la lb. exists n. specialize (K la lb). now rewrite !nil_more in K.
Qed.
Lemma lconv_ret {A B} (a : A) (b : B) : lconv (Ret a) (Ret b) a b nobufs nobufs.
Proof. intros la lb. rewrite !more_nil. apply conv_ret. Qed.
Lemma lconv_bind {A B C D} (f : A -> proc C) (g : B -> proc D) p q a b c d s t s' t' :
  lconv p q a b s t -> lconv (f a) (g b) c d s' t' ->
  lconv (pbind p f) (pbind q g) c d (more_in s s') (more_in t t').
Proof.
  intros H K la lb.
  assert (X : conv (pbind (logged p la) (fun r => logged (f (fst r)) (snd r))) (pbind (logged q lb) (fun r => logged (g (fst r)) (snd r)))
    (c, more_in la (more_in t t')) (d, more_in lb (more_in s s'))).
  { eapply conv_bind; [apply H|]. cbn [fst snd]. rewrite <- !more_assoc. apply K. }
  destruct X as [n X]. exists n. eapply abs_peq; [exact X| |]; apply logged_bind.
Qed.
Lemma lconv_rbind {A B C D} (f : A -> proc (res C)) (g : B -> proc (res D)) p q a b c d s t s' t' :
  lconv p q (Ok a) (Ok b) s t -> lconv (f a) (g b) c d s' t' ->
  lconv (rbind p f) (rbind q g) c d (more_in s s') (more_in t t').
Proof. intros H K. eapply lconv_bind; [exact H|exact K]. Qed.
(** a purely local beginning *)
Lemma lconv_local {A B C D} (f : A -> proc (res C)) (g : B -> proc (res D)) a b c d s t :
  lconv (f a) (g b) c d s t -> lconv (rbind (local (Ok a)) f) (rbind (local (Ok b)) g) c d s t.
Proof. intro H. exact H. Qed.

Lemma wp_logged {A} (Q : A -> flags -> Prop) : forall p l d, wp p d Q -> wp (logged p l) d (fun r d => Q (fst r) d).
Proof.
  induction p; intros l d; cbn [logged wp]; auto. intros [H1 H2]. split; [exact H1|]. intros; apply H. auto.
Qed.
Lemma lconv_runs {A B} (p : proc A) (q : proc B) a b s t : disciplined p -> disciplined q -> lconv p q a b s t ->
  runs_with_views p q a b t s.
Proof.
  intros P Q H. destruct (H nobufs nobufs) as [n K]. rewrite !nil_more in K.
  unfold runs_with_views. eapply completes; [| |exact K]; unfold disciplined.
  - eapply wp_mono; [|apply wp_logged, P]. intros a0 d0 X. exact X.
  - eapply wp_mono; [|apply wp_logged, Q]. intros a0 d0 X. exact X.
Qed.

(** * Inversion of [talk] *)
Lemma talk_ret {A} (a b : A) i o : talk (Ret a) i b o -> a = b /\ i = nobufs /\ o = nobufs.
Proof. inversion 1; auto. Qed.
Lemma talk_send {A} c bs (p : proc A) i a o : talk (Send c bs p) i a o -> exists o', o = put o' c (bs ++ get o' c) /\ talk p i a o'.
Proof. inversion 1; eauto. Qed.
Lemma talk_flush {A} c (p : proc A) i a o : talk (Flush c p) i a o -> talk p i a o.
Proof. inversion 1; eauto. Qed.
Lemma talk_recv {A} c n (k : list N -> proc A) i a o : talk (Recv c n k) i a o ->
  exists bs i', length bs = n /\ i = put i' c (bs ++ get i' c) /\ talk (k bs) i' a o.
Proof. inversion 1; subst. eauto 6. Qed.
Lemma talk_bind {A B} (f : A -> proc B) : forall p i c o, talk (pbind p f) i c o ->
  exists a i1 o1 i2 o2, talk p i1 a o1 /\ talk (f a) i2 c o2 /\ i = more_in i1 i2 /\ o = more_in o1 o2.
Proof.
  assert (P : forall d bs x y, put (more_in x y) d (bs ++ get (more_in x y) d) = more_in (put x d (bs ++ get x d)) y).
  { intros d bs [x1 x2] [y1 y2]. destruct d; unfold more_in; cbn; now rewrite app_assoc. }
  induction p; intros i r o T; cbn [pbind] in T.
  - exists a, nobufs, nobufs, i, o. rewrite !nil_more. repeat split; [constructor|exact T].
  - apply talk_send in T as (o' & -> & T). apply IHp in T as (a & i1 & o1 & i2 & o2 & T1 & T2 & -> & ->).
    exists a, i1, (put o1 c (bs ++ get o1 c)), i2, o2. repeat split; [now constructor|exact T2|apply P].
  - apply talk_flush in T. apply IHp in T as (a & i1 & o1 & i2 & o2 & T1 & T2 & -> & ->).
    exists a, i1, o1, i2, o2. repeat split; [now constructor|exact T2].
  - apply talk_recv in T as (bs & i' & <- & -> & T). apply H in T as (a & i1 & o1 & i2 & o2 & T1 & T2 & -> & ->).
    exists a, (put i1 c (bs ++ get i1 c)), o1, i2, o2. repeat split; [now constructor|exact T2|apply P].
Qed.
