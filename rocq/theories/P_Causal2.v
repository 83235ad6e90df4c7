(** The whole session: the requests follow from a party's own data and the values opened before. *)
From Coq Require Import List NArith ZArith Bool Arith Lia.
From Verif Require Import L_Bits L_Res L_PTree S_Netlist S_Causal M_EmpInteger M_Bristol M_Bn M_Sym.
From Verif Require Import M_Sha256 M_Hmac M_Handshake M_SymOn M_SymOff M_SymSess M_Causal P_Sym P_Causal.
Import ListNotations.
Local Open Scope sym_scope.
Local Opaque siter sfold prf_blks CHUNKLEN.

Section ORC.
Variable alice : bool.
Variable n : nat.
Variable F : list nev.
Variable o1 o2 : list nev -> nat -> bool.
Variable ks enc : bristol.
Hypothesis AGR : forall t1 t2 p ws i, map (own_part alice) t1 = map (own_part alice) t2 -> sfx (EReveal p ws :: t1) F ->
  length t1 < n -> i < length ws -> o1 (EReveal p ws :: t1) i = o2 (EReveal p ws :: t2) i.
Notation rel := (rel alice n F).

Lemma rel_greveal p ws : rel (greveal o1 p ws) (greveal o2 p ws).
Proof using AGR.
  intros s1 s2 E a1 u1 a2 u2 H1 H2 X. unfold greveal in H1, H2. injection H1 as <- <-. injection H2 as <- <-.
  assert (E' : steq alice (mkC (c_next s1) (EReveal p ws :: c_tr s1)) (mkC (c_next s2) (EReveal p ws :: c_tr s2))).
  { destruct E as [Ea Eb]. split; cbn; [auto|]. now rewrite Eb. }
  destruct (Nat.lt_ge_cases (length (c_tr s1)) n) as [L|L].
  - left. split; [|auto]. apply map_ext_in. intros i Hi. apply in_seq in Hi. apply AGR; auto; [apply E|lia].
  - right. pose proof (steq_len alice _ _ E). unfold far. cbn [c_tr length]. split; [lia|]. split; [lia|]. exact (steq_agree alice n _ _ E').
Qed.
Lemma rel_open8 d : rel (on_open8 o1 d) (on_open8 o2 d).
Proof using AGR. unfold on_open8. apply rel_bind; [apply rel_greveal| |gr|gr]. intro. apply rel_ret. Qed.

Ltac rs := match goal with
  | |- forall _, _ => intro
  | |- grow (on_open8 _ _) => apply grow_open8
  | |- grow (on_opt_update _ _ _ _ _) => apply grow_opt_update
  | |- grow (on_opt_hmac _ _ _ _ _) => apply grow_opt_hmac
  | |- grow (on_phash_step _ _ _ _ _) => apply grow_phash_step
  | |- grow (on_opt_compute _ _ _ _ _ _ _ _) => apply grow_opt_compute
  | |- grow (on_rounds_compute _ _ _ _ _ _ _) => apply grow_rounds_compute
  | |- grow (on_prf _ _ _ _ _ _) => apply grow_prf
  | |- grow (on_hinit _ _) => apply grow_hinit
  | |- grow (on_pms _ _ _) => apply grow_pms
  | |- grow (on_set_nonce _ _ _) => apply grow_set_nonce
  | |- grow (on_gctr _ _ _ _ _) => apply grow_gctr
  | |- grow (on_crypt _ _ _ _ _ _) => apply grow_crypt
  | |- grow _ => (gstep0 || gstep1 || gstep2 || gstep3)
  | |- P_Causal.rel _ _ _ (mbind _ _) _ => apply rel_bind
  | |- P_Causal.rel _ _ _ (mret _) _ => apply rel_ret
  | |- P_Causal.rel _ _ _ (lift _) _ => apply rel_lift
  | |- P_Causal.rel _ _ _ (greveal _ _ _) _ => apply rel_greveal
  | |- P_Causal.rel _ _ _ (gxor _ _) _ => apply rel_gxor
  | |- P_Causal.rel _ _ _ (sxor _ _) _ => apply rel_sxor
  | |- P_Causal.rel _ _ _ (gfeed _ _) _ => apply rel_gfeed
  | |- P_Causal.rel _ _ _ (on_open8 _ _) _ => apply rel_open8
  | |- P_Causal.rel _ _ _ (on_digest _ _ _) _ => apply rel_digest
  | |- P_Causal.rel _ _ _ (on_update _ _ _) _ => apply rel_update
  | |- P_Causal.rel _ _ _ (on_compress _ _) _ => apply rel_compress
  | |- P_Causal.rel _ _ _ (on_rest _ _ _) _ => apply rel_rest
  | |- P_Causal.rel _ _ _ (on_feed_words _) _ => apply rel_feed_words
  | |- P_Causal.rel _ _ _ (on_hinit _ _) _ => apply rel_hinit
  | |- P_Causal.rel _ _ _ (on_set_nonce _ _ _) _ => apply rel_set_nonce
  | |- P_Causal.rel _ _ _ (on_gctr _ _ _ _ _) _ => apply rel_gctr
  | |- P_Causal.rel _ _ _ (on_aead_new _ _ _ _) _ => apply rel_aead_new
  | |- P_Causal.rel _ _ _ (on_rounds_compute _ _ _ _ _ _ _) _ => apply rel_rounds_compute
  | |- P_Causal.rel _ _ _ (siter _ _ _) _ => apply rel_siter
  | |- P_Causal.rel _ _ _ (match ?x with _ => _ end) _ => destruct x
  | H : _ |- P_Causal.rel _ _ _ _ _ => apply H
  end.
Ltac rr := repeat rs; auto.
Lemma rel_opt_update st x m r : rel (on_opt_update o1 st x m r) (on_opt_update o2 st x m r).
Proof using AGR. unfold on_opt_update. rr. Qed.
Lemma rel_opt_hmac h m a b : rel (on_opt_hmac o1 h m a b) (on_opt_hmac o2 h m a b).
Proof using AGR. pose proof rel_opt_update. unfold on_opt_hmac. rr. Qed.
Lemma rel_phash_step sd a b st : rel (on_phash_step o1 sd a b st) (on_phash_step o2 sd a b st).
Proof using AGR. pose proof rel_opt_hmac. unfold on_phash_step. rr. Qed.
Lemma rel_opt_compute h r k l s a b : rel (on_opt_compute o1 h r k l s a b) (on_opt_compute o2 h r k l s a b).
Proof using AGR. pose proof rel_phash_step. unfold on_opt_compute. rr. Qed.
Lemma rel_prf s r k l sd : rel (on_prf o1 s r k l sd) (on_prf o2 s r k l sd).
Proof using AGR. pose proof rel_opt_compute. unfold on_prf. rr. Qed.
Lemma rel_crypt s iv len sec : rel (on_crypt o1 enc s iv len sec) (on_crypt o2 enc s iv len sec).
Proof using AGR. unfold on_crypt. cbv zeta. rr. Qed.
Lemma rel_do x c c' : own_call alice c = own_call alice c' -> rel (on_do o1 ks enc x c) (on_do o2 ks enc x c').
Proof using AGR.
  pose proof rel_prf. pose proof rel_crypt. intro E.
  destruct c, c'; cbn [own_call] in E; try discriminate; try (destruct alice; discriminate); cbn [on_do];
    try (injection E; clear E; intros; subst).
  - unfold on_master.
    assert (rc = rc0 /\ rs = rs0 /\ if alice then pa = pa0 else pb = pb0) as (<- & <- & O) by (destruct alice; repeat split; congruence).
    apply rel_bind; [apply rel_bind| | |]; rr. now apply rel_pms.
  - unfold on_ext_master.
    assert (session_hash = session_hash0 /\ if alice then pa = pa0 else pb = pb0) as (<- & O) by (destruct alice; repeat split; congruence).
    apply rel_bind; [apply rel_bind| | |]; rr. now apply rel_pms.
  - unfold on_expand. rr.
  - unfold on_finished. rr.
  - unfold on_finished. rr.
  - rr.
  - unfold on_crypt_call. rr.
  - unfold on_crypt_call. rr.
Qed.
Lemma rel_session q r cs cs' : map (own_call alice) cs = map (own_call alice) cs' ->
  rel (on_session o1 ks enc q r cs) (on_session o2 ks enc q r cs').
Proof using AGR.
  intro E. unfold on_session. apply rel_sfold with (R := fun c c' => own_call alice c = own_call alice c').
  - intros. now apply rel_do.
  - intros. apply grow_do.
  - intros. apply grow_do.
  - revert cs' E. induction cs as [|c cs IH]; intros [|c' cs'] E; cbn in E; try discriminate; constructor; [congruence|apply IH; congruence].
Qed.
End ORC.

(** ** the list of answers *)
Lemma answers_length orc t : length (answers orc t) = n_open t.
Proof. induction t as [|[] t IH]; cbn; auto. rewrite app_length, IH. cbn. lia. Qed.
Lemma answers_app orc l t : exists r, answers orc (l ++ t) = answers orc t ++ r.
Proof.
  induction l as [|e l [r IH]]; cbn [app]; [exists []; now rewrite app_nil_r|].
  destruct e; cbn [answers]; rewrite IH; eauto. eexists. now rewrite <- app_assoc.
Qed.
Lemma n_open_part alice t : n_open (map (own_part alice) t) = n_open t.
Proof. induction t as [|e t IH]; cbn; auto. destruct e; cbn; auto. destruct (peer alice p); cbn; auto. Qed.
Lemma first_reqs_app n l t : length t <= n -> exists l', first_reqs n (l ++ t) = l' ++ t.
Proof.
  intro H. unfold first_reqs. rewrite app_length. rewrite skipn_app. exists (skipn (length l + length t - n) l). f_equal.
  replace (length l + length t - n - length l) with 0 by lia. reflexivity.
Qed.
Lemma replay_agrees alice n F orc t1 t2 p ws i :
  map (own_part alice) t1 = map (own_part alice) t2 -> sfx (EReveal p ws :: t1) F -> length t1 < n -> i < length ws ->
  orc (EReveal p ws :: t1) i = replay (answers orc (first_reqs n F)) (EReveal p ws :: t2) i.
Proof.
  intros E [l ->] L Hi. unfold replay. cbn [n_open].
  assert (N : n_open t2 = n_open t1) by now rewrite <- (n_open_part alice t1), E, n_open_part.
  destruct (first_reqs_app n l (EReveal p ws :: t1) ltac:(cbn; lia)) as [l' ->].
  destruct (answers_app orc l' (EReveal p ws :: t1)) as [r ->]. cbn [answers].
  rewrite <- app_assoc. cbn [app]. rewrite N. replace (S (n_open t1) - 1) with (n_open t1) by lia.
  rewrite <- (answers_length orc t1). rewrite nth_middle.
  rewrite nth_indep with (d' := orc (EReveal p ws :: t1) 0) by (rewrite map_length, seq_length; auto).
  rewrite (map_nth (orc (EReveal p ws :: t1)) (seq 0 (length ws)) 0 i). now rewrite seq_nth.
Qed.
Lemma first_reqs_firstn alice n t t' : firstn n (rev (map (own_part alice) t)) = firstn n (rev (map (own_part alice) t')) ->
  map (own_part alice) (first_reqs n t) = map (own_part alice) (first_reqs n t').
Proof.
  assert (K : forall u, map (own_part alice) (first_reqs n u) = rev (firstn n (rev (map (own_part alice) u)))).
  { intro u. unfold first_reqs. rewrite firstn_rev, rev_involutive, map_length. symmetry. apply skipn_map. }
  intro H. now rewrite !K, H.
Qed.
Lemma honest_answers t : answers honest t = map snd (openings t).
Proof.
  induction t as [|[] t IH]; cbn [answers openings]; auto. rewrite map_app, IH. cbn [map snd]. f_equal. f_equal.
  cbn [honest]. transitivity (map (wval (vals t)) (map (fun i => nth i ws (WPub false)) (seq 0 (length ws)))).
  - rewrite map_map. reflexivity.
  - f_equal. clear. apply nth_ext with (d := WPub false) (d' := WPub false).
    + now rewrite map_length, seq_length.
    + intros k Hk. rewrite map_length, seq_length in Hk.
      rewrite nth_indep with (d' := nth 0 ws (WPub false)) by (now rewrite map_length, seq_length).
      rewrite (map_nth (fun i => nth i ws (WPub false)) (seq 0 (length ws)) 0 k). now rewrite seq_nth.
Qed.

(** ** the requests of a session *)
Lemma session_ok orc orc' ks enc q r cs cs' x s : Forall (sizes_ok q r) cs -> Forall (sizes_ok q r) cs' -> map announce cs = map announce cs' ->
  on_session orc ks enc q r cs (mkC 0 []) = Ok (x, s) -> exists x' s', on_session orc' ks enc q r cs' (mkC 0 []) = Ok (x', s').
Proof.
  intros Z Z' A H.
  pose proof (sim_session orc orc (fun _ => false) ks enc q r cs Z (mkC 0 []) (mkC 0 []) eq_refl eq_refl) as S1.
  pose proof (sim_session orc' orc (fun _ => false) ks enc q r cs' Z' (mkC 0 []) (mkC 0 []) eq_refl eq_refl) as S2.
  rewrite H in S1. rewrite <- A in S2. destruct (off_session _ _ _ _ _ _ _ _) as [[]| |]; try contradiction.
  destruct (on_session orc' _ _ _ _ _ _) as [[x' s']| |]; try contradiction. eauto.
Qed.
Lemma own_announce alice cs cs' : map (own_call alice) cs = map (own_call alice) cs' -> map announce cs = map announce cs'.
Proof.
  intro E. assert (K : forall l, map announce l = map announce (map (own_call alice) l)).
  { intro l. rewrite map_map. apply map_ext. intros []; cbn; destruct alice; reflexivity. }
  now rewrite (K cs), E, <- K.
Qed.
Theorem requests_causal alice orc ks enc q r cs cs' x s n :
  Forall (sizes_ok q r) cs -> Forall (sizes_ok q r) cs' -> map (own_call alice) cs = map (own_call alice) cs' ->
  on_session orc ks enc q r cs (mkC 0 []) = Ok (x, s) ->
  exists x' s', on_session (replay (answers orc (first_reqs n (c_tr s)))) ks enc q r cs' (mkC 0 []) = Ok (x', s') /\
    map (own_part alice) (first_reqs (S n) (c_tr s)) = map (own_part alice) (first_reqs (S n) (c_tr s')).
Proof.
  intros Z Z' E H.
  destruct (session_ok orc (replay (answers orc (first_reqs n (c_tr s)))) ks enc q r cs cs' x s Z Z' (own_announce _ _ _ E) H) as (x' & s' & H').
  exists x', s'. split; auto. apply first_reqs_firstn.
  pose proof (rel_session alice n (c_tr s) orc _ ks enc (fun t1 t2 p ws i => replay_agrees alice n (c_tr s) orc t1 t2 p ws i) q r cs cs' E
    (mkC 0 []) (mkC 0 []) (conj eq_refl eq_refl) _ _ _ _ H H' (ex_intro _ [] eq_refl)) as [[_ Q]|(_ & _ & Q)]; auto.
  now apply steq_agree.
Qed.
(** both parties honest: the values are those of the wires *)
Theorem requests_causal_honest alice ks enc q r cs cs' x s n :
  Forall (sizes_ok q r) cs -> Forall (sizes_ok q r) cs' -> map (own_call alice) cs = map (own_call alice) cs' ->
  on_session honest ks enc q r cs (mkC 0 []) = Ok (x, s) ->
  exists x' s', on_session (replay (map snd (openings (first_reqs n (c_tr s))))) ks enc q r cs' (mkC 0 []) = Ok (x', s') /\
    map (own_part alice) (first_reqs (S n) (c_tr s)) = map (own_part alice) (first_reqs (S n) (c_tr s')).
Proof. intros. rewrite <- honest_answers. now apply requests_causal with (cs := cs) (x := x). Qed.
