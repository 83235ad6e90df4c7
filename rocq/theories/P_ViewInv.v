(** The results and views of a pair of programs are unique, and every run gives the conversation. *)
From Coq Require Import List NArith Bool Arith Lia.
From Verif Require Import S_Sched S_View P_Sched P_Exch P_View.
Import ListNotations.

Lemma pstep_dec {A} (s : side A) inc : (exists s' inc', pstep s inc s' inc') \/ (forall s' inc', ~ pstep s inc s' inc').
Proof.
  destruct s as [p o w]. destruct p as [a|c bs p|c p|c n k].
  - right. intros s' inc' H. inversion H.
  - left. eexists _, _. constructor.
  - left. eexists _, _. constructor.
  - destruct (get o c) as [|x l] eqn:E.
    + destruct (le_dec n (length (get inc c))) as [L|L].
      * left. eexists _, _. now constructor.
      * right. intros s' inc' H. inversion H; subst; congruence.
    + left. eexists _, _. apply StepRecvFlush. rewrite E. discriminate.
Qed.
Section U.
Context {A B : Type}.
Lemma move_dec (x : @config A B) : (exists y, prog_step x y) \/ stuck x.
Proof.
  destruct x as [a b]. destruct (pstep_dec a (wire b)) as [(a' & w & H)|Na]; [left; eexists; constructor; exact H|].
  destruct (pstep_dec b (wire a)) as [(b' & w & H)|Nb]; [left; eexists; constructor; exact H|].
  right. intros y H. inversion H; subst; [eapply Na|eapply Nb]; eassumption.
Qed.
Lemma reach_end (x : @config A B) : Acc (fun y x => step x y) x -> exists y, reach x y /\ stuck y.
Proof.
  induction 1 as [x _ IH]. destruct (move_dec x) as [[y H]|H].
  - destruct (IH y (StepProg _ _ H)) as (z & R & S). exists z. split; [|exact S].
    clear -H R. induction R as [|u v R IHR S]; [eapply reach_step; [apply reach_refl|now constructor]|]. eapply reach_step; eassumption.
  - exists x. split; [apply reach_refl|exact H].
Qed.
Lemma completes_reach (p : proc A) (q : proc B) a b : always_completes p q a b -> reach (start p q) (finished a b).
Proof. intros [F T]. destruct (reach_end _ T) as (y & R & S). now rewrite (F y R S) in R. Qed.
Lemma finished_stuck (a : A) (b : B) : stuck (finished a b).
Proof. intros y H. inversion H; subst; match goal with H : pstep _ _ _ _ |- _ => inversion H end. Qed.
Theorem completes_unique (p : proc A) (q : proc B) a b a' b' : always_completes p q a b -> always_completes p q a' b' -> a = a' /\ b = b'.
Proof.
  intros H [F _]. assert (E := F _ (completes_reach _ _ _ _ H) (finished_stuck a b)). unfold finished, start in E. now injection E.
Qed.
Lemma reach_abs (p : proc A) (q : proc B) x : disciplined p -> disciplined q -> reach (start p q) x ->
  okconf x /\ exists n, abs_steps n (mkA p q nobufs nobufs) (absof x).
Proof.
  intros P Q. induction 1 as [|y z R [O (n & N)] S].
  - split; [split; (exists (false, false); split; [intros []; reflexivity|assumption])|]. exists 0. constructor.
  - destruct (step_abs _ _ S O) as [O' [D| [-> _]]]; (split; [exact O'|]); [|now exists n].
    exists (n + 1). eapply abs_trans; [exact N|]. econstructor; [exact D|constructor].
Qed.
End U.
Theorem views_unique {A B} (p : proc A) (q : proc B) a b sa sb a' b' sa' sb' :
  runs_with_views p q a b sa sb -> runs_with_views p q a' b' sa' sb' -> a = a' /\ b = b' /\ sa = sa' /\ sb = sb'.
Proof. intros H K. destruct (completes_unique _ _ _ _ _ _ H K) as [E F]. injection E as -> ->. injection F as -> ->. auto. Qed.

Lemma talk_logged {A} : forall (p : proc A) l i r o, talk (logged p l) i r o -> talk p i (fst r) o /\ snd r = more_in l i.
Proof.
  induction p as [a|c bs p IH|c p IH|c n k IH]; intros l i r o T; cbn [logged] in T.
  - apply talk_ret in T as (<- & -> & ->). split; [constructor|now rewrite more_nil].
  - apply talk_send in T as (o' & -> & T). apply IH in T as [T ->]. split; [now constructor|reflexivity].
  - apply talk_flush in T. apply IH in T as [T ->]. split; [now constructor|reflexivity].
  - apply talk_recv in T as (bs & i' & <- & -> & T). apply IH in T as [T ->]. split; [now constructor|apply more_push].
Qed.
(** every run is a conversation: what one received is what the other one sent *)
Theorem runs_talk {A B} (p : proc A) (q : proc B) a b sa sb : disciplined p -> disciplined q ->
  runs_with_views p q a b sa sb -> talk p sa a sb /\ talk q sb b sa.
Proof.
  intros P Q H. apply completes_reach in H. apply reach_abs in H as [_ [n H]].
  2: { eapply wp_mono; [|apply wp_logged, P]. intros r d X. exact X. }
  2: { eapply wp_mono; [|apply wp_logged, Q]. intros r d X. exact X. }
  destruct (run_talk (a, sa) (b, sb) n _ _ _ _ H) as (op & oq & T1 & T2 & _). rewrite nil_more in T1, T2.
  apply talk_logged in T1 as [T1 E1]. apply talk_logged in T2 as [T2 E2]. cbn [fst snd] in *. rewrite nil_more in E1, E2. subst. now split.
Qed.
