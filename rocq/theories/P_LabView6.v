(** The programs that also return the objects are the programs of C90. *)
From Coq Require Import List NArith Bool.
From Verif Require Import L_Bits L_Res S_Sched.
From Verif Require S_Netlist.
From Verif Require Import M_Ole2k M_Shares M_Aead M_Exch M_View M_LabRec M_LabView.
From Verif Require Import P_View.
Import ListNotations.
Local Opaque l_op l_new.

Lemma rbind_peq {A B} (p : proc (res A)) (f g : A -> proc (res B)) : (forall a, peq (f a) (g a)) -> peq (rbind p f) (rbind p g).
Proof. intro H. unfold rbind. induction p as [[a| |]| | |]; cbn; try (constructor; auto). apply H. Qed.
Lemma rbind_assoc {A B C} (p : proc (res A)) (f : A -> proc (res B)) (g : B -> proc (res C)) :
  peq (rbind p (fun a => rbind (f a) g)) (rbind (rbind p f) g).
Proof. unfold rbind. induction p as [[a| |]| | |]; cbn; try (constructor; auto). apply peq_refl. Qed.
Lemma peq_trans {A} (p q r : proc A) : peq p q -> peq q r -> peq p r.
Proof. intro H. revert r. induction H; intros r K; inversion K; subst; try (constructor; auto). 
Qed.
Definition outputs {X Y} (p : proc (res (X * Y * list pout))) : proc (res (list pout)) := rbind p (fun r => Ret (Ok (snd r))).
Section V.
Variable gfr : N -> N -> N.
Variable hash : list N -> list N.
Lemma calls_outputs alice l : forall c s, peq (l_calls gfr hash alice c s l) (outputs (l_calls_st gfr hash alice c s l)).
Proof.
  induction l as [|[o w] l IH]; intros c s; cbn [l_calls l_calls_st]; [apply peq_refl|].
  eapply peq_trans; [|apply rbind_assoc]. apply rbind_peq. intros [p x].
  eapply peq_trans; [|apply rbind_assoc].
  eapply peq_trans with (q := rbind (outputs (l_calls_st gfr hash alice (if lc_srv o then c else p) (if lc_srv o then p else s) l)) (fun xs => Ret (Ok (x :: xs)))).
  - specialize (IH (if lc_srv o then c else p) (if lc_srv o then p else s)). unfold rbind. induction IH as [a| | |]; cbn; try (constructor; auto). apply peq_refl.
  - unfold outputs.
    assert (S : forall A (a b : proc A), peq a b -> peq b a) by (induction 1; constructor; auto). apply S.
    eapply peq_trans; [|apply rbind_assoc]. apply rbind_peq. intros [[c' s'] xs]. apply peq_refl.
Qed.
Theorem run_outputs alice labels op sh cs v :
  peq (l_session gfr hash alice labels op sh (rr_c v) (rr_oc v) (rr_s v) (rr_os v) (lcalls cs (rr_calls v)))
      (outputs (l_run gfr hash alice labels op sh cs v)).
Proof.
  unfold l_session, l_run. destruct sh as [|hc [|hs ws]]; try apply peq_refl.
  eapply peq_trans; [|apply rbind_assoc]. apply rbind_peq. intro c.
  eapply peq_trans; [|apply rbind_assoc]. apply rbind_peq. intro s. apply calls_outputs.
Qed.
End V.
