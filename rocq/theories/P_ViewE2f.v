(** What a party sees of the online phase of the point conversion. *)
From Coq Require Import List NArith ZArith Bool Arith Lia Ring Setoid Znumtheory.
From Verif Require Import L_Bits L_Res L_Modq S_Sched S_View M_Bn M_E2f M_Exch P_Bn P_Ole P_E2f P_Sched P_Exch P_View.
Import ListNotations.
Local Open Scope Z_scope.
Local Opaque bn_H recv_bn bn_buf BN_bn2bin u32_bytes.

(** the bytes of a vector of numbers *)
Definition bnb (l : list Z) : list N := match send_bns l with Ok b => b | _ => [] end.
Definition only_io (l : list N) : bufs := {| on_io := l; on_opt := [] |}.
Definition only_opt (l : list N) : bufs := {| on_io := []; on_opt := l |}.

(** one party's share of the seven numbers: reduced, a triple with the other party's share, and a sum of
    the first members that has an inverse *)
Definition share_ok (q : Z) (t s : e2f) : Prop :=
  (0 <= e_a s < q /\ 0 <= e_b s < q /\ 0 <= e_c s < q /\ 0 <= e_bp s < q /\ 0 <= e_cp s < q /\ 0 <= e_r s < q /\ 0 <= e_r2 s < q) /\
  triples_ok q s t /\ ~ cong q (e_a s + e_a t) 0.

Section Q.
Variable q : Z.
Hypothesis Hq : bound1000 q.
Hypothesis Pq : prime q.
Notation "a == b" := (cong q a b) (at level 70).
Notation inq := (fun x => 0 <= x < q).
Lemma Qn : q <> 0.
Proof. destruct Hq; lia. Qed.

Lemma talk_rbind_ok {A B} (f : A -> proc (res B)) p i o b : talk (rbind p f) i (Ok b) o ->
  exists a i1 o1 i2 o2, talk p i1 (Ok a) o1 /\ talk (f a) i2 (Ok b) o2 /\ i = more_in i1 i2 /\ o = more_in o1 o2.
Proof.
  intro T. apply talk_bind in T as (r & i1 & o1 & i2 & o2 & T1 & T2 & -> & ->). destruct r as [a| |].
  - exists a, i1, o1, i2, o2. auto.
  - apply talk_ret in T2 as [T2 _]. discriminate.
  - apply talk_ret in T2 as [T2 _]. discriminate.
Qed.
Lemma talk_send_bn c x i o : talk (p_send_bn c x) i (Ok tt) o -> exists b, send_bn x = Ok b /\ i = nobufs /\ o = put nobufs c b.
Proof.
  unfold p_send_bn, send_bn. destruct (bn_buf <? length (BN_bn2bin x))%nat; intro T.
  - apply talk_ret in T as [T _]. discriminate.
  - eexists. split; [reflexivity|]. apply talk_send in T as (o1 & -> & T). apply talk_send in T as (o2 & -> & T).
    apply talk_ret in T as (_ & -> & ->). destruct c; cbn; rewrite ?app_nil_r; auto.
Qed.
Lemma talk_send_bns c : forall l i o, talk (p_send_bns c l) i (Ok tt) o ->
  exists b, send_bns l = Ok b /\ i = nobufs /\ o = put nobufs c b.
Proof.
  induction l as [|x l IH]; intros i o T; cbn [p_send_bns send_bns] in *.
  - apply talk_ret in T as (_ & -> & ->). exists []. destruct c; auto.
  - apply talk_rbind_ok in T as ([] & i1 & o1 & i2 & o2 & T1 & T2 & -> & ->).
    apply talk_send_bn in T1 as (b1 & E1 & -> & ->). apply IH in T2 as (b2 & E2 & -> & ->).
    rewrite E1, E2. exists (b1 ++ b2). split; [reflexivity|]. destruct c; cbn; unfold more_in; cbn; rewrite ?app_nil_r; auto.
Qed.
Lemma talk_recv_bn c i o x : talk (p_recv_bn c) i (Ok x) o -> o = nobufs.
Proof.
  unfold p_recv_bn. intro T.
  repeat match goal with
    | T : talk (Recv _ _ _) _ _ _ |- _ => apply talk_recv in T as (? & ? & _ & -> & T)
    | T : talk (match ?b with _ => _ end) _ _ _ |- _ => destruct b
    | T : talk (Ret _) _ _ _ |- _ => apply talk_ret in T as (_ & -> & ->)
    end; reflexivity.
Qed.
Lemma talk_recv_bns c : forall n i o l, talk (p_recv_bns c n) i (Ok l) o -> o = nobufs.
Proof.
  induction n as [|n IH]; intros i o l T; cbn [p_recv_bns] in T.
  - now apply talk_ret in T as (_ & _ & ->).
  - apply talk_rbind_ok in T as (x & i1 & o1 & i2 & o2 & T1 & T2 & -> & ->). apply talk_recv_bn in T1 as ->.
    apply talk_rbind_ok in T2 as (y & j1 & p1 & j2 & p2 & T1 & T2 & -> & ->). apply IH in T1 as ->.
    apply talk_ret in T2 as (_ & _ & ->). reflexivity.
Qed.
Lemma talk_open al v i o l : talk (p_open q al v) i (Ok l) o -> o = put nobufs (if al then IO else IO_OPT) (bnb v).
Proof.
  intro T. unfold p_open in T.
  assert (G : forall m t, talk (rbind (p_send_bns m v) (fun _ => Flush m (rbind (p_recv_bns t (length v)) (fun t => Ret (Ok (map2 (fun v t => BN_mod_add v t q) v t)))))) i (Ok l) o ->
    o = put nobufs m (bnb v)).
  { intros m t K. apply talk_rbind_ok in K as ([] & i1 & o1 & i2 & o2 & T1 & T2 & -> & ->).
    apply talk_send_bns in T1 as (b & E & -> & ->). apply talk_flush in T2.
    apply talk_rbind_ok in T2 as (y & j1 & p1 & j2 & p2 & T1 & T2 & -> & ->). apply talk_recv_bns in T1 as ->.
    apply talk_ret in T2 as (_ & _ & ->). unfold bnb. rewrite E. destruct m; unfold more_in; cbn; now rewrite ?app_nil_r. }
  destruct al; exact (G _ _ T).
Qed.
Lemma lconv_open va vb : length vb = length va -> Forall inq va -> Forall inq vb ->
  lconv (p_open q true va) (p_open q false vb) (Ok (opened q va vb)) (Ok (opened q va vb)) (only_io (bnb va)) (only_opt (bnb vb)).
Proof.
  intros L Fa Fb. destruct (lconv_of_conv _ _ _ _ (conv_open q Hq va vb L Fa Fb)) as (s & t & T1 & T2 & K).
  apply talk_open in T1 as ->. apply talk_open in T2 as ->. rewrite (map2_add_comm q vb va) in K. exact K.
Qed.

(** the messages and the result of one party, given what is opened *)
Definition sent3 (e : list Z) (w t : Z) : list N := bnb e ++ bnb [w] ++ bnb [t].
Lemma lconv_online s t xa ya xb yb :
  let ea := e2f_eps q true s xa ya in let eb := e2f_eps q false t xb yb in
  let e := opened q ea eb in
  let wa := e2f_w q s (nth 0 e 0) in let wb := e2f_w q t (nth 0 e 0) in
  let w := (wa + wb) mod q in
  forall ta tb, e2f_eta q s w (nth 1 e 0) = Ok ta -> e2f_eta q t w (nth 1 e 0) = Ok tb ->
  let z := (ta + tb) mod q in
  lconv (p_e2f_online q true s xa ya) (p_e2f_online q false t xb yb)
    (Ok (e2f_out q true s z xa)) (Ok (e2f_out q false t z xb))
    (only_io (sent3 ea wa ta)) (only_opt (sent3 eb wb tb)).
Proof.
  intros ea eb e wa wb w ta tb Ea Eb z.
  assert (F : forall al s x y, Forall inq (e2f_eps q al s x y)) by (intros; repeat constructor; apply (in_q q Hq)).
  assert (G : forall s x, Forall inq [e2f_w q s x]) by (intros; repeat constructor; apply (in_q q Hq)).
  assert (I : forall s w e t, e2f_eta q s w e = Ok t -> Forall inq [t]).
  { intros s0 w0 e0 t0. unfold e2f_eta. destruct (w0 =? 0); [discriminate|]. destruct (BN_mod_inverse w0 q); [|discriminate].
    intros [= <-]. repeat constructor; apply (in_q q Hq). }
  assert (Sa : only_io (sent3 ea wa ta) = more_in (only_io (bnb ea)) (more_in (only_io (bnb [wa])) (more_in (only_io (bnb [ta])) nobufs))).
  { unfold sent3, only_io, more_in. cbn. now rewrite !app_nil_r. }
  assert (Sb : only_opt (sent3 eb wb tb) = more_in (only_opt (bnb eb)) (more_in (only_opt (bnb [wb])) (more_in (only_opt (bnb [tb])) nobufs))).
  { unfold sent3, only_opt, more_in. cbn. now rewrite !app_nil_r. }
  rewrite Sa, Sb. unfold p_e2f_online.
  eapply lconv_rbind; [apply lconv_open; [reflexivity|apply F|apply F]|]. fold ea eb. fold e. cbv beta.
  eapply lconv_rbind; [apply lconv_open; [reflexivity|apply G|apply G]|]. cbv beta.
  change (nth 0 (opened q [wa] [wb]) 0) with w.
  rewrite Ea, Eb. apply lconv_local.
  eapply lconv_rbind; [apply lconv_open; [reflexivity|eapply I, Ea|eapply I, Eb]|]. cbv beta.
  apply lconv_ret.
Qed.

(** * Inverses *)
Definition zinv (x : Z) : Z := match BN_mod_inverse x q with Some i => i | None => 0 end.
Lemma inv_of x : ~ x == 0 -> exists i, BN_mod_inverse x q = Some i /\ zinv x = i /\ x * i == 1.
Proof.
  intro N. destruct (BN_mod_inverse_ok x q) as (i & E & _ & H).
  { destruct Hq; lia. }
  { apply Zgcd_1_rel_prime, rel_prime_sym, prime_rel_prime; auto. intros [k D]. apply N. exists k. lia. }
  exists i. unfold zinv. rewrite E. repeat split. apply cong_iff; [apply Qn|]. rewrite H. symmetry. apply Z.mod_1_l. destruct Hq; lia.
Qed.
Lemma zinv_mul x : ~ x == 0 -> x * zinv x == 1.
Proof. intro N. destruct (inv_of x N) as (i & _ & -> & H). exact H. Qed.
Lemma one_not_0 : ~ 1 == 0.
Proof. intros [k H]. destruct Hq. assert (0 < k \/ k <= 0) by lia. nia. Qed.
Lemma mul_not_0 a b : ~ a == 0 -> ~ b == 0 -> ~ a * b == 0.
Proof. intros A B H. destruct (cong_prime_mul q a b Pq H); contradiction. Qed.
Lemma zinv_not_0 x : ~ x == 0 -> ~ zinv x == 0.
Proof. intros N H. pose proof (zinv_mul x N) as K. rewrite H in K. apply one_not_0. rewrite <- K. cring. Qed.

(** * Another input of the other party *)
(** [u], [v]: the difference of the coordinates, before and after *)
Section Shift.
Variables (t : e2f) (u v u' v' : Z).
Definition shift (s : e2f) : e2f :=
  let a := ((e_a s + e_a t) * u * zinv u' - e_a t) mod q in
  let b := (e_b s + u' - u) mod q in
  let bp := (e_bp s + v' - v) mod q in
  let r := (e_r s + v' * zinv u' - v * zinv u) mod q in
  {| e_a := a; e_b := b; e_c := ((a + e_a t) * (b + e_b t) - e_c t) mod q;
     e_bp := bp; e_cp := ((a + e_a t) * (bp + e_bp t) - e_cp t) mod q;
     e_r := r; e_r2 := ((r + e_r t) * (r + e_r t) - e_r2 t) mod q |}.
Hypothesis U : ~ u == 0.
Hypothesis U' : ~ u' == 0.
Lemma shift_ok s : share_ok q t s -> share_ok q t (shift s).
Proof.
  intros (_ & _ & A). unfold share_ok, triples_ok, shift. cbn [e_a e_b e_c e_bp e_cp e_r e_r2].
  split; [do 6 (split; [apply (in_q q Hq)|]); apply (in_q q Hq)|].
  split; [repeat split; rewrite (mod_cong q (_ - _)); cring|].
  rewrite mod_cong. intro H. apply (mul_not_0 ((e_a s + e_a t) * u) (zinv u')).
  - now apply mul_not_0.
  - now apply zinv_not_0.
  - rewrite <- H. cring.
Qed.
End Shift.
Lemma shift_back t u v u' v' s : ~ u == 0 -> ~ u' == 0 -> share_ok q t s -> shift t u' v' u v (shift t u v u' v' s) = s.
Proof.
  intros U U' ((Ha & Hb & Hc & Hbp & Hcp & Hr & Hr2) & (T1 & T2 & T3) & _).
  pose proof (zinv_mul u U) as I. pose proof (zinv_mul u' U') as I'.
  assert (E : forall x y, 0 <= y < q -> x == y -> x mod q = y).
  { intros x y R H. apply (cong_small q); [apply (in_q q Hq)|exact R|]. rewrite mod_cong. exact H. }
  unfold shift. cbn [e_a e_b e_c e_bp e_cp e_r e_r2].
  match goal with |- context [(?x * u' * zinv u - e_a t) mod q] => assert (Ea : (x * u' * zinv u - e_a t) mod q = e_a s) end.
  { apply E; [exact Ha|]. rewrite mod_cong.
    transitivity ((e_a s + e_a t) * (u * zinv u) * (u' * zinv u') - e_a t); [cring|]. rewrite I, I'. cring. }
  rewrite Ea. clear Ea.
  match goal with |- context [(?x + u - u') mod q] => assert (Eb : (x + u - u') mod q = e_b s) end.
  { apply E; [exact Hb|]. rewrite mod_cong. cring. }
  rewrite Eb. clear Eb.
  match goal with |- context [(?x + v - v') mod q] => assert (Eb : (x + v - v') mod q = e_bp s) end.
  { apply E; [exact Hbp|]. rewrite mod_cong. cring. }
  rewrite Eb. clear Eb.
  match goal with |- context [(?x + v * zinv u - v' * zinv u') mod q] => assert (Eb : (x + v * zinv u - v' * zinv u') mod q = e_r s) end.
  { apply E; [exact Hr|]. rewrite mod_cong. cring. }
  rewrite Eb. clear Eb.
  rewrite (E _ (e_c s) Hc) by (rewrite <- T1; cring).
  rewrite (E _ (e_cp s) Hcp) by (rewrite <- T2; cring).
  rewrite (E _ (e_r2 s) Hr2) by (rewrite <- T3; cring).
  now destruct s.
Qed.

(** the four masks determine the share *)
Theorem share_of_masks t a b bp r : 0 <= a < q -> 0 <= b < q -> 0 <= bp < q -> 0 <= r < q -> ~ a + e_a t == 0 ->
  exists s, (share_ok q t s /\ e_a s = a /\ e_b s = b /\ e_bp s = bp /\ e_r s = r) /\
    forall s', share_ok q t s' /\ e_a s' = a /\ e_b s' = b /\ e_bp s' = bp /\ e_r s' = r -> s' = s.
Proof.
  intros Ha Hb Hbp Hr A.
  exists {| e_a := a; e_b := b; e_c := ((a + e_a t) * (b + e_b t) - e_c t) mod q;
     e_bp := bp; e_cp := ((a + e_a t) * (bp + e_bp t) - e_cp t) mod q;
     e_r := r; e_r2 := ((r + e_r t) * (r + e_r t) - e_r2 t) mod q |}.
  split.
  - unfold share_ok, triples_ok. cbn [e_a e_b e_c e_bp e_cp e_r e_r2]. split; [|auto].
    split; [pose proof (in_q q Hq); auto 10|]. split; [|exact A]. repeat split; rewrite (mod_cong q (_ - _)); cring.
  - intros [a' b' c' bp' cp' r' r2'] (((_ & _ & Hc & _ & Hcp & _ & Hr2) & (T1 & T2 & T3) & _) & Ea & Eb & Ebp & Er).
    cbn [e_a e_b e_c e_bp e_cp e_r e_r2] in *. subst a' b' bp' r'.
    assert (E : forall x y, 0 <= y < q -> x == y -> x mod q = y).
    { intros x y R H. apply (cong_small q); [apply (in_q q Hq)|exact R|]. rewrite mod_cong. exact H. }
    f_equal; symmetry; (apply E; [assumption|]).
    + rewrite <- T1. cring.
    + rewrite <- T2. cring.
    + rewrite <- T3. cring.
Qed.
(** the coordinate as it enters the difference *)
Definition dco (al : bool) (x : Z) : Z := if al then - x else x.
Lemma eps_cong al s x y : exists e1 e2, e2f_eps q al s x y = [e1; e2] /\ 0 <= e1 < q /\ 0 <= e2 < q /\
  e1 == dco al x - e_b s /\ e2 == dco al y - e_bp s.
Proof.
  unfold e2f_eps. eexists _, _. split; [reflexivity|]. split; [apply (in_q q Hq)|]. split; [apply (in_q q Hq)|].
  unfold BN_mod_sub. rewrite !mod_cong. destruct al; cbn [dco]; rewrite ?(q_minus_cong q); split; reflexivity.
Qed.
Section One.
Variables (al : bool) (t s : e2f) (x y x' y' x0 y0 : Z).
Let u := dco al x + dco (negb al) x0.
Let v := dco al y + dco (negb al) y0.
Let u' := dco al x' + dco (negb al) x0.
Let v' := dco al y' + dco (negb al) y0.
Let s' := shift t u v u' v' s.
Hypothesis U : ~ u == 0.
Hypothesis U' : ~ u' == 0.
Hypothesis S : share_ok q t s.
Lemma same_eps : e2f_eps q al s' x' y' = e2f_eps q al s x y.
Proof.
  destruct (eps_cong al s x y) as (e1 & e2 & -> & R1 & R2 & E1 & E2).
  destruct (eps_cong al s' x' y') as (f1 & f2 & -> & Q1 & Q2 & F1 & F2).
  assert (e1 = f1); [|assert (e2 = f2); [|congruence]].
  - apply (cong_small q); [exact R1|exact Q1|]. rewrite E1, F1. unfold s', shift. cbn [e_b]. rewrite mod_cong. unfold u, u'. cring.
  - apply (cong_small q); [exact R2|exact Q2|]. rewrite E2, F2. unfold s', shift. cbn [e_bp]. rewrite mod_cong. unfold v, v'. cring.
Qed.
(** the opened differences *)
Variables e1 e2 : Z.
Hypothesis E1 : e1 == u - (e_b s + e_b t).
Hypothesis E2 : e2 == v - (e_bp s + e_bp t).
Lemma a_shift : e_a s' + e_a t == (e_a s + e_a t) * u * zinv u'.
Proof. unfold s', shift. cbn [e_a]. rewrite mod_cong. cring. Qed.
Lemma e1_shift : e1 == u' - (e_b s' + e_b t).
Proof. rewrite E1. unfold s', shift. cbn [e_b]. rewrite mod_cong. cring. Qed.
Lemma e2_shift : e2 == v' - (e_bp s' + e_bp t).
Proof. rewrite E2. unfold s', shift. cbn [e_bp]. rewrite mod_cong. cring. Qed.
Lemma same_w : e2f_w q s' e1 = e2f_w q s e1.
Proof.
  apply (cong_small q); [apply (in_q q Hq)|apply (in_q q Hq)|].
  unfold e2f_w, BN_mod_add, BN_mod_mul. rewrite !mod_cong.
  destruct S as (_ & (T1 & _) & _). destruct (shift_ok t u v u' v' U U' s S) as (_ & (T1' & _) & _). fold s' in T1'.
  transitivity ((e_a s' + e_a t) * u' - (e1 * e_a t + e_c t)).
  - transitivity ((e_c s' + e_c t) + e1 * (e_a s' + e_a t) - (e1 * e_a t + e_c t)); [cring|].
    rewrite T1', e1_shift. cring.
  - transitivity ((e_a s + e_a t) * u - (e1 * e_a t + e_c t)).
    + rewrite a_shift. transitivity ((e_a s + e_a t) * u * (u' * zinv u') - (e1 * e_a t + e_c t)); [cring|]. rewrite (zinv_mul u' U'). cring.
    + transitivity ((e_c s + e_c t) + e1 * (e_a s + e_a t) - (e1 * e_a t + e_c t)); [|cring]. rewrite T1, E1. cring.
Qed.
Lemma w_opened : (e2f_w q s e1 + e2f_w q t e1) mod q == (e_a s + e_a t) * u.
Proof.
  unfold e2f_w, BN_mod_add, BN_mod_mul. rewrite !mod_cong. destruct S as (_ & (T1 & _) & _).
  transitivity ((e_c s + e_c t) + e1 * (e_a s + e_a t)); [cring|]. rewrite T1, E1. cring.
Qed.
Lemma same_eta w : w == (e_a s + e_a t) * u -> e2f_eta q s' w e2 = e2f_eta q s w e2 /\ exists ta tb, e2f_eta q s w e2 = Ok ta /\ e2f_eta q t w e2 = Ok tb.
Proof.
  intro W. destruct S as (_ & (T1 & T2 & _) & A). destruct (shift_ok t u v u' v' U U' s S) as (_ & (_ & T2' & _) & _). fold s' in T2'.
  assert (Nw : ~ w == 0) by (rewrite W; now apply mul_not_0).
  destruct (inv_of w Nw) as (i & Ei & _ & Hi). unfold e2f_eta.
  replace (w =? 0) with false by (symmetry; apply Z.eqb_neq; intros ->; apply Nw; reflexivity). rewrite Ei.
  split; [|eexists _, _; split; reflexivity]. f_equal.
  apply (cong_small q); [apply (in_q q Hq)|apply (in_q q Hq)|].
  unfold BN_mod_add, BN_mod_sub, BN_mod_mul. rewrite !mod_cong.
  assert (Hi' : (e_a s + e_a t) * i == zinv u).
  { transitivity ((e_a s + e_a t) * i * (u * zinv u)); [rewrite (zinv_mul u U); cring|].
    transitivity (w * i * zinv u); [rewrite W; cring|]. rewrite Hi. cring. }
  set (K := i * (e2 * e_a t + e_cp t)).
  assert (X : forall a c, i * (e2 * a + c) == i * ((c + e_cp t) + e2 * (a + e_a t)) - K) by (intros; unfold K; cring).
  rewrite !X. clearbody K. transitivity (v * zinv u - K - e_r s).
  - rewrite T2', e2_shift. transitivity (i * ((e_a s' + e_a t) * v') - K - e_r s'); [cring|].
    rewrite a_shift. unfold s', shift. cbn [e_r]. rewrite mod_cong.
    transitivity ((e_a s + e_a t) * i * u * zinv u' * v' - K - (e_r s + v' * zinv u' - v * zinv u)); [cring|].
    rewrite Hi'. transitivity (u * zinv u * zinv u' * v' - K - (e_r s + v' * zinv u' - v * zinv u)); [cring|].
    rewrite (zinv_mul u U). cring.
  - rewrite T2, E2. transitivity ((e_a s + e_a t) * i * v - K - e_r s); [rewrite Hi'; cring|cring].
Qed.
End One.

(** * Both directions *)
Lemma cong_neq a b : ~ a == b -> ~ b - a == 0.
Proof. intros N H. apply N. transitivity (b - (b - a)); [cring|]. rewrite H. cring. Qed.
Lemma share_sym s t : triples_ok q s t -> triples_ok q t s.
Proof.
  intros (T1 & T2 & T3). unfold triples_ok. repeat split.
  - rewrite (Z.add_comm (e_c t)), (Z.add_comm (e_a t)), (Z.add_comm (e_b t)). exact T1.
  - rewrite (Z.add_comm (e_cp t)), (Z.add_comm (e_a t)), (Z.add_comm (e_bp t)). exact T2.
  - rewrite (Z.add_comm (e_r2 t)), (Z.add_comm (e_r t)). exact T3.
Qed.
Lemma opened_cong al s x y t x0 y0 : exists e1 e2,
  opened q (e2f_eps q al s x y) (e2f_eps q (negb al) t x0 y0) = [e1; e2] /\
  e1 == dco al x + dco (negb al) x0 - (e_b s + e_b t) /\ e2 == dco al y + dco (negb al) y0 - (e_bp s + e_bp t).
Proof.
  destruct (eps_cong al s x y) as (e1 & e2 & -> & _ & _ & E1 & E2).
  destruct (eps_cong (negb al) t x0 y0) as (f1 & f2 & -> & _ & _ & F1 & F2).
  eexists _, _. split; [reflexivity|]. rewrite !mod_cong, E1, E2, F1, F2. split; cring.
Qed.
Theorem bob_e2f t xb yb xa ya xa' ya' : ~ xa == xb -> ~ xa' == xb ->
  exists F G : e2f -> e2f,
    (forall s, share_ok q t s -> share_ok q t (F s) /\ G (F s) = s) /\
    (forall s, share_ok q t s -> share_ok q t (G s) /\ F (G s) = s) /\
    forall s, share_ok q t s -> exists oa sa oa' sa' ob sb,
      runs_with_views (p_e2f_online q true s xa ya) (p_e2f_online q false t xb yb) (Ok oa) (Ok ob) sa sb /\
      runs_with_views (p_e2f_online q true (F s) xa' ya') (p_e2f_online q false t xb yb) (Ok oa') (Ok ob) sa' sb.
Proof.
  intros N N'. set (u := dco true xa + dco false xb). set (v := dco true ya + dco false yb).
  set (u' := dco true xa' + dco false xb). set (v' := dco true ya' + dco false yb).
  assert (U : ~ u == 0) by (intro H; apply (cong_neq xa xb N); rewrite <- H; unfold u; cbn [dco]; cring).
  assert (U' : ~ u' == 0) by (intro H; apply (cong_neq xa' xb N'); rewrite <- H; unfold u'; cbn [dco]; cring).
  exists (shift t u v u' v'), (shift t u' v' u v). split; [|split].
  - intros s S. split; [now apply shift_ok|now apply shift_back].
  - intros s S. split; [now apply shift_ok|now apply shift_back].
  - intros s S.
    destruct (opened_cong true s xa ya t xb yb) as (e1 & e2 & EO & E1 & E2). cbn [negb] in *. fold u in E1. fold v in E2.
    pose proof (same_eps true t s xa ya xa' ya' xb yb) as Q1. cbn [negb] in Q1. fold u v u' v' in Q1.
    pose proof (same_w true t s xa ya xa' ya' xb yb U U' S e1 E1) as Q2. cbn [negb] in Q2. fold u v u' v' in Q2.
    pose proof (w_opened true t s xa xb S e1 E1) as W.
    destruct (same_eta true t s xa ya xa' ya' xb yb U U' S e2 E2 _ W) as (Q3 & ta & tb & Ta & Tb). cbn [negb] in Q3. fold u v u' v' in Q3.
    pose proof (lconv_online s t xa ya xb yb) as L. pose proof (lconv_online (shift t u v u' v' s) t xa' ya' xb yb) as L'.
    cbv zeta in L, L'. rewrite Q1 in L'. rewrite EO in L, L'. cbn [nth] in L, L'. rewrite Q2 in L'.
    eexists _, _, _, _, _, _. split.
    + eapply lconv_runs; [apply wp_online; exact Hq|apply wp_online; exact Hq|]. exact (L ta tb Ta Tb).
    + eapply lconv_runs; [apply wp_online; exact Hq|apply wp_online; exact Hq|]. apply (L' ta tb); [rewrite Q3; exact Ta|exact Tb].
Qed.
Theorem alice_e2f t xb yb xb' yb' xa ya : ~ xa == xb -> ~ xa == xb' ->
  exists F G : e2f -> e2f,
    (forall s, share_ok q t s -> share_ok q t (F s) /\ G (F s) = s) /\
    (forall s, share_ok q t s -> share_ok q t (G s) /\ F (G s) = s) /\
    forall s, share_ok q t s -> exists oa sa ob sb ob' sb',
      runs_with_views (p_e2f_online q true t xa ya) (p_e2f_online q false s xb yb) (Ok oa) (Ok ob) sa sb /\
      runs_with_views (p_e2f_online q true t xa ya) (p_e2f_online q false (F s) xb' yb') (Ok oa) (Ok ob') sa sb'.
Proof.
  intros N N'. set (u := dco false xb + dco true xa). set (v := dco false yb + dco true ya).
  set (u' := dco false xb' + dco true xa). set (v' := dco false yb' + dco true ya).
  assert (U : ~ u == 0) by (intro H; apply (cong_neq xa xb N); rewrite <- H; unfold u; cbn [dco]; cring).
  assert (U' : ~ u' == 0) by (intro H; apply (cong_neq xa xb' N'); rewrite <- H; unfold u'; cbn [dco]; cring).
  exists (shift t u v u' v'), (shift t u' v' u v). split; [|split].
  - intros s S. split; [now apply shift_ok|now apply shift_back].
  - intros s S. split; [now apply shift_ok|now apply shift_back].
  - intros s S.
    destruct (opened_cong false s xb yb t xa ya) as (e1 & e2 & EO & E1 & E2). cbn [negb] in *. fold u in E1. fold v in E2.
    pose proof (same_eps false t s xb yb xb' yb' xa ya) as Q1. cbn [negb] in Q1. fold u v u' v' in Q1.
    pose proof (same_w false t s xb yb xb' yb' xa ya U U' S e1 E1) as Q2. cbn [negb] in Q2. fold u v u' v' in Q2.
    pose proof (w_opened false t s xb xa S e1 E1) as W.
    destruct (same_eta false t s xb yb xb' yb' xa ya U U' S e2 E2 _ W) as (Q3 & ta & tb & Ta & Tb). cbn [negb] in Q3. fold u v u' v' in Q3.
    pose proof (lconv_online t s xa ya xb yb) as L. pose proof (lconv_online t (shift t u v u' v' s) xa ya xb' yb') as L'.
    cbv zeta in L, L'. rewrite Q1 in L'. rewrite (map2_add_comm q (e2f_eps q true t xa ya)) in L, L'. rewrite EO in L, L'. cbn [nth] in L, L'. rewrite Q2 in L'.
    rewrite (Z.add_comm (e2f_w q t e1)) in L, L'.
    eexists _, _, _, _, _, _. split.
    + eapply lconv_runs; [apply wp_online; exact Hq|apply wp_online; exact Hq|]. exact (L tb ta Tb Ta).
    + eapply lconv_runs; [apply wp_online; exact Hq|apply wp_online; exact Hq|]. apply (L' tb ta); [exact Tb|rewrite Q3; exact Ta].
Qed.
End Q.
