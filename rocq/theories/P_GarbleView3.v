(** The evaluator's view of the streaming backend fits every input with the same opened values. *)
From Coq Require Import List NArith Bool Arith Lia.
From Verif Require Import L_Bits L_Res L_Xor S_Circuit S_GarbleView M_Block M_Garble M_GarbleTr P_Garble P_GarbleFeed P_GarbleOpt P_GarbleView P_GarbleView2.
Import ListNotations.
Local Open Scope N_scope.

Section EV.
Variables (sigma aes aes' : N -> N) (Hash : list N -> N) (fixk Kc : nat -> N) (rnd : nat -> bool) (lab : nat -> N) (delta : N).
Hypothesis Hd : getLSB delta = true.
Hypothesis Bd : blk delta.
Hypothesis Bs : forall x, blk (sigma x).
Hypothesis Ba : forall x, blk (aes x).
Hypothesis Ba' : forall x, blk (aes' x).
Hypothesis Bf : forall i, blk (fixk i).
Hypothesis Bk : forall i, blk (Kc i).
Hypothesis Bl : forall i, blk (lab i).

Lemma sel2 (x : N) b b' : N.lxor (N.lxor x (sel b delta)) (sel b' delta) = N.lxor x (sel (xorb b b') delta).
Proof. now rewrite N.lxor_assoc, lxor_sel_sel. Qed.
Lemma rel_g q : rel delta q -> qk q = None -> qg q = N.lxor (qe q) (sel (qv q) delta).
Proof. unfold rel. intros R K. rewrite K in R. destruct R as (_ & _ & E & _). rewrite E, sel2, xorb_nilpotent. symmetry. apply N.lxor_0_r. Qed.
Lemma nonspecial_sel x b : ~ special x -> ~ special (N.lxor x delta) -> ~ special (N.lxor x (sel b delta)).
Proof. destruct b; cbn [sel]; [|rewrite N.lxor_0_r]; auto. Qed.

(** one AND gate in both runs *)
Definition live_ok (k : N) (p q p' q' : quad) : Prop :=
  aes' (hash_point sigma (qe p) (2 * k)) = aes (hash_point sigma (qe p) (2 * k)) /\
  aes' (hash_point sigma (qe q) (2 * k + 1)) = aes (hash_point sigma (qe q) (2 * k + 1)) /\
  aes' (hash_point sigma (N.lxor (qe p) delta) (2 * k)) = N.lxor (aes (hash_point sigma (N.lxor (qe p) delta) (2 * k))) (sel (xorb (qv q) (qv q')) delta) /\
  aes' (hash_point sigma (N.lxor (qe q) delta) (2 * k + 1)) = N.lxor (aes (hash_point sigma (N.lxor (qe q) delta) (2 * k + 1))) (sel (xorb (qv p) (qv p')) delta).
Lemma and_twin p q p' q' gid : rel delta p -> rel delta q -> rel delta p' -> rel delta q' ->
  qe p' = qe p -> qe q' = qe q -> qk p' = qk p -> qk q' = qk q ->
  (qk p = None -> qk q = None -> live_ok gid p q p' q') ->
  let '(o, gid1, m) := og_and sigma aes delta (qg p) (qg q) gid in
  let '(o', gid1', m') := og_and sigma aes' delta (qg p') (qg q') gid in
  m' = m /\ gid1' = gid1 /\
  exists oe, oe_and sigma aes (qe p) (qe q) gid m = Ok (oe, gid1, []) /\ oe_and sigma aes' (qe p') (qe q') gid m = Ok (oe, gid1, []) /\
  (and_kind (qk p) (qk q) = None -> ~ special oe -> ~ special (N.lxor oe delta) -> ~ special o').
Proof.
  intros Rp Rq Rp' Rq' Ep Eq Kp Kq L.
  assert (A1 := and_ok sigma aes delta Hd Bd Bs Ba p q gid Rp Rq). assert (A2 := and_ok sigma aes' delta Hd Bd Bs Ba' p' q' gid Rp' Rq').
  rewrite Kp, Kq in A2.
  destruct (qk p) as [bp|] eqn:K1; [|destruct (qk q) as [bq|] eqn:K2].
  - (* constant left *)
    assert (G1 : qg p = opt_public bp /\ qe p = opt_public bp) by (unfold rel in Rp; rewrite K1 in Rp; tauto).
    assert (G1' : qg p' = opt_public bp) by (unfold rel in Rp'; rewrite Kp in Rp'; tauto).
    destruct G1 as [G1 G2]. unfold og_and in *. rewrite G1, G1' in *. rewrite isZero_pub, isOne_pub in *.
    assert (OE : forall gid ch, oe_and sigma aes' (qe p') (qe q') gid ch = oe_and sigma aes (qe p) (qe q) gid ch).
    { intros. rewrite Ep, Eq, G2. unfold oe_and. rewrite isZero_pub, isOne_pub. destruct bp; reflexivity. }
    destruct bp; cbn [negb orb] in *.
    + destruct (qk q) as [bq|] eqn:K2.
      * assert (Gq : qg q = opt_public bq) by (unfold rel in Rq; rewrite K2 in Rq; tauto).
        assert (Gq' : qg q' = opt_public bq) by (unfold rel in Rq'; rewrite Kq in Rq'; tauto).
        rewrite Gq, Gq', isZero_pub in *. destruct bq; cbn [negb] in *.
        -- destruct A1 as (oe & A1 & _). specialize (A1 []). rewrite app_nil_r in A1. split; [reflexivity|]. split; [reflexivity|]. exists oe. split; [exact A1|]. split; [rewrite OE; exact A1|discriminate].
        -- destruct A1 as (oe & A1 & _). specialize (A1 []). rewrite app_nil_r in A1. split; [reflexivity|]. split; [reflexivity|]. exists oe. split; [exact A1|]. split; [rewrite OE; exact A1|discriminate].
      * assert (Sq : ~ special (qg q)) by (unfold rel in Rq; rewrite K2 in Rq; tauto).
        assert (Sq' : ~ special (qg q')) by (unfold rel in Rq'; rewrite Kq in Rq'; tauto).
        rewrite (isZero_no _ Sq), (isZero_no _ Sq') in *.
        destruct A1 as (oe & A1 & _). specialize (A1 []). rewrite app_nil_r in A1. split; [reflexivity|]. split; [reflexivity|]. exists oe. split; [exact A1|]. split; [rewrite OE; exact A1|]. auto.
    + destruct A1 as (oe & A1 & _). specialize (A1 []). rewrite app_nil_r in A1. split; [reflexivity|]. split; [reflexivity|]. exists oe. split; [exact A1|]. split; [rewrite OE; exact A1|]. destruct (qk q); discriminate.
  - (* constant right *)
    assert (G1 : qg q = opt_public bq /\ qe q = opt_public bq) by (unfold rel in Rq; rewrite K2 in Rq; tauto).
    assert (G1' : qg q' = opt_public bq) by (unfold rel in Rq'; rewrite Kq in Rq'; tauto).
    assert (Sp : ~ special (qg p)) by (unfold rel in Rp; rewrite K1 in Rp; tauto).
    assert (Sp' : ~ special (qg p')) by (unfold rel in Rp'; rewrite Kp in Rp'; tauto).
    destruct G1 as [G1 G2]. unfold og_and in *. rewrite G1, G1' in *. rewrite isZero_pub, isOne_pub in *.
    rewrite (isZero_no _ Sp), (isZero_no _ Sp'), (isOne_no _ Sp), (isOne_no _ Sp') in *.
    assert (OE : forall gid ch, oe_and sigma aes' (qe p') (qe q') gid ch = oe_and sigma aes (qe p) (qe q) gid ch).
    { intros. rewrite Ep, Eq, G2. unfold oe_and. rewrite isZero_pub, isOne_pub. destruct (isZero (qe p)), (isOne (qe p)), bq; reflexivity. }
    destruct bq; cbn [negb orb] in *; destruct A1 as (oe & A1 & _); specialize (A1 []); rewrite app_nil_r in A1; (split; [reflexivity|]); (split; [reflexivity|]);
      exists oe; (split; [exact A1|]); (split; [rewrite OE; exact A1|]); auto; discriminate.
  - specialize (L eq_refl eq_refl). destruct L as (L1 & L2 & L3 & L4).
    assert (Sp : ~ special (qg p)) by (unfold rel in Rp; rewrite K1 in Rp; tauto).
    assert (Sp' : ~ special (qg p')) by (unfold rel in Rp'; rewrite Kp in Rp'; tauto).
    assert (Sq : ~ special (qg q)) by (unfold rel in Rq; rewrite K2 in Rq; tauto).
    assert (Sq' : ~ special (qg q')) by (unfold rel in Rq'; rewrite Kq in Rq'; tauto).
    assert (P1 := rel_g p Rp K1). assert (Q1 := rel_g q Rq K2). assert (P2 := rel_g p' Rp' Kp). assert (Q2 := rel_g q' Rq' Kq).
    rewrite Ep in P2. rewrite Eq in Q2.
    unfold og_and in *. rewrite (isZero_no _ Sp), (isZero_no _ Sp'), (isOne_no _ Sp), (isOne_no _ Sp') in *.
    rewrite (isZero_no _ Sq), (isZero_no _ Sq'), (isOne_no _ Sq), (isOne_no _ Sq') in *. cbn [orb] in *.
    destruct (garble_gate sigma aes (qg p) (N.lxor (qg p) delta) (qg q) (N.lxor (qg q) delta) delta gid) as [[o t0] t1] eqn:G.
    assert (GS := gate_same sigma aes aes' delta Hd (qe p) (qe q) (qv p) (qv q) (qv p') (qv q') gid o t0 t1). cbn zeta in GS.
    rewrite <- P1, <- Q1, <- P2, <- Q2 in GS. specialize (fun a b c d => GS a b c d G).
    rewrite !makeBlock_point in GS. rewrite L1, L2, L3, L4 in GS.
    specialize (GS eq_refl eq_refl). rewrite GS in A2 |- * by xor_solve.
    split; [reflexivity|]. split; [reflexivity|].
    destruct A1 as (oe & A1 & _). destruct A2 as (oe' & A2 & _). specialize (A1 []). specialize (A2 []). cbn [app] in A1, A2.
    assert (EO : oe = oe' /\ oe' = N.lxor (N.lxor (N.lxor o (sel (qv p && qv q) delta)) (sel (qv p' && qv q') delta)) (sel (qv p' && qv q') delta)).
    { assert (S1 : ~ special (qe p)) by (unfold rel in Rp; rewrite K1 in Rp; tauto). assert (S2 : ~ special (qe q)) by (unfold rel in Rq; rewrite K2 in Rq; tauto).
      rewrite Ep, Eq in A2. unfold oe_and in A1, A2. rewrite (isZero_no _ S1), (isZero_no _ S2), (isOne_no _ S1), (isOne_no _ S2) in A1, A2.
      cbn [orb recv as_table bind fst snd] in A1, A2. injection A1 as A1. injection A2 as A2.
      assert (HG := half_gate_ok sigma aes delta _ _ (qv p) (qv q) gid o t0 t1 Hd G).
      rewrite P1, Q1, !sel2, !xorb_nilpotent in HG. cbn [sel] in HG. rewrite !N.lxor_0_r, A1 in HG.
      assert (EV : eval_gate sigma aes' (qe p) (qe q) t0 t1 gid = eval_gate sigma aes (qe p) (qe q) t0 t1 gid).
      { unfold eval_gate. rewrite !makeBlock_point, L1, L2. reflexivity. }
      split; [congruence|]. rewrite <- A2, EV, A1, HG, !sel2. f_equal. f_equal. destruct (qv p), (qv q), (qv p'), (qv q'); reflexivity. }
    destruct EO as [<- EO]. exists oe. split; [exact A1|]. split; [exact A2|]. intros _ S1 S2.
    assert (X : N.lxor (N.lxor o (sel (qv p && qv q) delta)) (sel (qv p' && qv q') delta) = N.lxor oe (sel (qv p' && qv q') delta)).
    { rewrite EO. xor_solve. }
    rewrite X. now apply nonspecial_sel.
Qed.

Lemma xor_twin p q p' q' : rel delta p -> rel delta q -> rel delta p' -> rel delta q' ->
  qe p' = qe p -> qe q' = qe q -> qk p' = qk p -> qk q' = qk q -> xor_clean delta p q ->
  xor_clean delta p' q' /\
  (xor_kind (qk p) (qk q) = None -> ~ special (oe_xor fixk (qe p) (qe q)) -> ~ special (N.lxor (oe_xor fixk (qe p) (qe q)) delta) ->
   ~ special (og_xor fixk delta (qg p') (qg q'))).
Proof.
  intros Rp Rq Rp' Rq' Ep Eq Kp Kq C.
  destruct (qk p) as [bp|] eqn:K1; [|destruct (qk q) as [bq|] eqn:K2].
  - split; [unfold xor_clean; rewrite Kp; exact I|]. intros K S1 S2. cbn [xor_kind] in K. destruct (qk q) as [bq|] eqn:K2; [discriminate|].
    assert (Gp : qg p' = opt_public bp) by (unfold rel in Rp'; rewrite Kp in Rp'; tauto).
    assert (Sq : ~ special (qg q')) by (unfold rel in Rq'; rewrite Kq in Rq'; tauto).
    assert (Ee : qe p = opt_public bp) by (unfold rel in Rp; rewrite K1 in Rp; tauto).
    assert (Se : ~ special (qe q)) by (unfold rel in Rq; rewrite K2 in Rq; tauto).
    rewrite Ee in S1, S2. unfold oe_xor, og_xor, oe_not, og_not in *. rewrite Gp. rewrite !isOne_pub, !isZero_pub in *.
    rewrite (isOne_no _ Sq), (isZero_no _ Sq). rewrite (isOne_no _ Se), (isZero_no _ Se) in *.
    destruct bp; cbn [negb] in *; [|exact Sq]. rewrite (rel_g q' Rq' Kq), Eq.
    destruct (qv q'); cbn [sel]; rewrite ?N.lxor_0_r; [|exact S2]. now rewrite N.lxor_assoc, lxx, N.lxor_0_r.
  - split; [unfold xor_clean; rewrite Kp, Kq; exact I|]. intros K S1 S2.
    assert (Gq : qg q' = opt_public bq) by (unfold rel in Rq'; rewrite Kq in Rq'; tauto).
    assert (Sp : ~ special (qg p')) by (unfold rel in Rp'; rewrite Kp in Rp'; tauto).
    assert (Ee : qe q = opt_public bq) by (unfold rel in Rq; rewrite K2 in Rq; tauto).
    assert (Se : ~ special (qe p)) by (unfold rel in Rp; rewrite K1 in Rp; tauto).
    rewrite Ee in S1, S2. unfold oe_xor, og_xor, oe_not, og_not in *. rewrite Gq. rewrite !isOne_pub, !isZero_pub in *.
    rewrite (isOne_no _ Sp), (isZero_no _ Sp). rewrite (isOne_no _ Se), (isZero_no _ Se) in *.
    destruct bq; cbn [negb] in *; [|exact Sp]. rewrite (rel_g p' Rp' Kp), Ep.
    destruct (qv p'); cbn [sel]; rewrite ?N.lxor_0_r; [|exact S2]. now rewrite N.lxor_assoc, lxx, N.lxor_0_r.
  - assert (P1 := rel_g p Rp K1). assert (Q1 := rel_g q Rq K2). assert (P2 := rel_g p' Rp' Kp). assert (Q2 := rel_g q' Rq' Kq).
    rewrite Ep in P2. rewrite Eq in Q2.
    unfold xor_clean in *. rewrite K1, K2 in C. rewrite Kp, Kq. destruct C as [C1 C2].
    assert (NZ := delta_nz delta Hd).
    assert (NE : qe p <> N.lxor (qe q) delta).
    { intro E. destruct (qv p) eqn:V1, (qv q) eqn:V2; cbn [sel] in P1, Q1; rewrite ?N.lxor_0_r in P1, Q1.
      - apply C2; [|reflexivity]. rewrite P1, Q1, E. xor_solve.
      - assert (X : true = false); [|discriminate]. apply C1. rewrite P1, Q1, E. xor_solve.
      - assert (X : false = true); [|discriminate]. apply C1. rewrite P1, Q1, E. xor_solve.
      - apply C2; [|reflexivity]. rewrite P1, Q1, E. reflexivity. }
    assert (X1 : qg p' = qg q' -> qe p = qe q /\ qv p' = qv q').
    { rewrite P2, Q2. destruct (qv p'), (qv q'); cbn [sel]; rewrite ?N.lxor_0_r; intro E.
      - split; [|reflexivity]. apply (f_equal (fun x => N.lxor x delta)) in E. rewrite !N.lxor_assoc, lxx, !N.lxor_0_r in E. exact E.
      - exfalso. apply NE. rewrite <- E. now rewrite N.lxor_assoc, lxx, N.lxor_0_r.
      - exfalso. apply NE. exact E.
      - auto. }
    assert (X2 : qg p' = N.lxor (qg q') delta -> qe p = qe q /\ qv p' <> qv q').
    { rewrite P2, Q2. destruct (qv p'), (qv q'); cbn [sel]; rewrite ?N.lxor_0_r; intro E.
      - exfalso. apply NE. rewrite (N.lxor_assoc (qe q)), lxx, N.lxor_0_r in E. rewrite <- E. now rewrite N.lxor_assoc, lxx, N.lxor_0_r.
      - split; [|discriminate]. apply (f_equal (fun x => N.lxor x delta)) in E. rewrite !N.lxor_assoc, lxx, !N.lxor_0_r in E. exact E.
      - split; [|discriminate]. rewrite E. now rewrite N.lxor_assoc, lxx, N.lxor_0_r.
      - exfalso. apply NE. exact E. }
    split; [split; intro E; [apply (X1 E)|apply (X2 E)]|]. intros _ S1 S2.
    assert (Sp : ~ special (qg p')) by (unfold rel in Rp'; rewrite Kp in Rp'; tauto).
    assert (Sq : ~ special (qg q')) by (unfold rel in Rq'; rewrite Kq in Rq'; tauto).
    assert (Sep : ~ special (qe p)) by (unfold rel in Rp; rewrite K1 in Rp; tauto).
    assert (Seq : ~ special (qe q)) by (unfold rel in Rq; rewrite K2 in Rq; tauto).
    unfold oe_xor, og_xor in *. rewrite (isOne_no _ Sp), (isOne_no _ Sq), (isZero_no _ Sp), (isZero_no _ Sq).
    rewrite (isOne_no _ Sep), (isOne_no _ Seq), (isZero_no _ Sep), (isZero_no _ Seq) in S1, S2. cbn zeta in *.
    unfold isZero in *. destruct (N.eqb_spec (N.lxor (qg p') (qg q')) 0) as [E|E].
    { apply N.lxor_eq in E. apply X1 in E. destruct E as [E _]. rewrite E, lxx in S1. exact S1. }
    destruct (N.eqb_spec (N.lxor (qg p') (qg q')) delta) as [F|F].
    { assert (F' : qg p' = N.lxor (qg q') delta) by (rewrite <- F; xor_solve). apply X2 in F'. destruct F' as [F' _]. rewrite F', lxx in S2. exact S2. }
    destruct (N.eqb_spec (N.lxor (qe p) (qe q)) 0) as [H|H].
    { exfalso. apply N.lxor_eq in H. rewrite P2, Q2, H in E, F.
      destruct (qv p'), (qv q'); cbn [sel] in E, F; rewrite ?N.lxor_0_r in E, F; try (apply E; xor_solve); apply F; xor_solve. }
    assert (Y : N.lxor (qg p') (qg q') = N.lxor (N.lxor (qe p) (qe q)) (sel (xorb (qv p') (qv q')) delta)).
    { rewrite P2, Q2. destruct (qv p'), (qv q'); cbn [sel xorb]; rewrite ?N.lxor_0_r; xor_solve. }
    rewrite Y. now apply nonspecial_sel.
Qed.
Lemma not_twin p p' : rel delta p' -> qe p' = qe p -> qk p' = None -> ~ special (qe p) -> ~ special (N.lxor (qe p) delta) ->
  ~ special (og_not delta (qg p')).
Proof.
  intros R E K S1 S2. assert (G := rel_g p' R K). assert (Sp : ~ special (qg p')) by (unfold rel in R; rewrite K in R; tauto).
  unfold og_not. rewrite (isZero_no _ Sp), (isOne_no _ Sp), G, E.
  replace delta with (sel true delta) at 2 by reflexivity. rewrite sel2. now apply nonspecial_sel.
Qed.

(** *** One instruction in both runs *)
Notation step := (o_step sigma aes Hash fixk Kc rnd lab delta).
Notation step' := (o_step sigma aes' Hash fixk Kc rnd lab delta).
Notation inv := (oinv Kc rnd delta).
Definition twin (bs : nat) (s s' : ostate) (w w' : list bool) (k : list (option bool)) : Prop :=
  inv bs s w k /\ inv bs s' w' k /\ oe_w s' = oe_w s /\ oe_f s' = oe_f s /\ og_f s' = og_f s /\ og_gid s' = og_gid s.
Lemma kind_shape k c c' : shape c = shape c' -> kind_step k c' = kind_step k c.
Proof.
  intro H. destruct c'; try (apply shape_other in H; subst c; reflexivity). apply shape_feed in H. destruct H as (b & -> & L).
  cbn [kind_step]. now rewrite L.
Qed.
Lemma new_shape c c' : shape c = shape c' -> new_wires c' = new_wires c.
Proof.
  intro H. destruct c'; try (apply shape_other in H; subst c; reflexivity). apply shape_feed in H. destruct H as (b & -> & L).
  cbn [new_wires]. now rewrite L.
Qed.
Lemma wf_shape n c c' : shape c = shape c' -> wf_instr n c' = wf_instr n c.
Proof.
  intro H. destruct c'; try (apply shape_other in H; subst c; reflexivity). apply shape_feed in H. destruct H as (b & -> & L). reflexivity.
Qed.
Lemma inv_len bs s w k : inv bs s w k -> length (og_w s) = length w /\ length (oe_w s) = length w /\ length k = length w.
Proof. intros (Q & p & _ & -> & -> & -> & -> & _). now rewrite !map_length. Qed.
Lemma inv_quad bs s w k i : inv bs s w k -> (i < length w)%nat ->
  exists q, rel delta q /\ qv q = wire w i /\ qk q = kind k i /\ qg q = lbl (og_w s) i /\ qe q = lbl (oe_w s) i.
Proof.
  intros (Q & p & F & -> & -> & -> & -> & _) H. rewrite map_length in H. exists (nth i Q q0). split; [now apply nth_q|].
  now rewrite wire_q, kind_q, lbl_g, lbl_e.
Qed.
(** what a reveal leaves *)
Lemma reveal_keeps ae s p ws s1 op : o_step sigma ae Hash fixk Kc rnd lab delta s (IReveal p ws) = Ok (s1, op) ->
  og_w s1 = og_w s /\ oe_w s1 = oe_w s /\ oe_f s1 = oe_f s /\ og_f s1 = og_f s /\ og_gid s1 = og_gid s.
Proof.
  cbn [o_step]. destruct p.
  - destruct (oe_reveal_send _) as [be m]. destruct (og_reveal_recv _ _) as [[bg ch]| |]; cbn [bind]; intro H; try discriminate. injection H as <- _. repeat split.
  - destruct (og_reveal_send _) as [be m]. destruct (oe_reveal_recv _ _) as [[bg ch]| |]; cbn [bind]; intro H; try discriminate. injection H as <- _. repeat split.
  - destruct (og_reveal_send _) as [be m]. destruct (oe_reveal_recv _ _) as [[bg ch]| |]; cbn [bind]; intro H; try discriminate.
    destruct (recv as_bits _) as [[b1 c1]| |]; cbn [bind] in H; try discriminate. destruct (recv as_hash _) as [[b2 c2]| |]; cbn [bind] in H; try discriminate.
    destruct (og_reveal_check _ _ _ _ _) as [b3| |]; cbn [bind] in H; try discriminate. injection H as <- _. repeat split.
Qed.
(** the same value and the same label of the evaluator: the same label of the garbler *)
Lemma same_g bs s s' w w' k ws : twin bs s s' w w' k -> forallb (fun i => (i <? length w)%nat) ws = true -> map (wire w) ws = map (wire w') ws ->
  map (lbl (og_w s')) ws = map (lbl (og_w s)) ws.
Proof.
  intros (I1 & I2 & EW & _) Hw Hv. apply map_ext_in. intros i Hi.
  rewrite forallb_forall in Hw. assert (Li := Hw i Hi). apply Nat.ltb_lt in Li.
  assert (L' : length w' = length w) by (destruct (inv_len _ _ _ _ I1) as (_ & _ & L1), (inv_len _ _ _ _ I2) as (_ & _ & L2); congruence).
  destruct (inv_quad _ _ _ _ i I1 Li) as (q & R & V & K & G & E). destruct (inv_quad _ _ _ _ i I2 ltac:(lia)) as (q' & R' & V' & K' & G' & E').
  rewrite <- G, <- G'. assert (VV : wire w i = wire w' i).
  { clear - Hv Hi. induction ws as [|j ws IH]; [destruct Hi|]. cbn [map] in Hv. injection Hv as H1 H2. destruct Hi as [->|Hi]; auto. }
  destruct (kind k i) as [b|] eqn:Kk.
  - unfold rel in R, R'. rewrite K in R. rewrite K' in R'. destruct R as (_ & -> & _). destruct R' as (_ & -> & _). reflexivity.
  - rewrite (rel_g q R K), (rel_g q' R' K'), V, V', E, E', EW, VV. reflexivity.
Qed.

Lemma twin_step bs s s' w w' k c c' s1 op :
  twin bs s s' w w' k -> shape c = shape c' -> (match c with IFeed BOB _ => c' = c | _ => True end) -> wf_instr (length w) c = true ->
  clean_step sigma aes Hash fixk Kc rnd lab delta s w k c -> step s c = Ok (s1, op) ->
  (forall i, (length w <= i < length w + new_wires c)%nat -> kind (kind_step k c) i = None -> ~ special (N.lxor (lbl (oe_w s1) i) delta)) ->
  (forall i j, c = IAnd i j -> kind k i = None -> kind k j = None -> gate_ok sigma aes delta aes' (oe_w s) w w' (og_gid s, i, j)) ->
  told BOB (spec_opened w c) = told BOB (spec_opened w' c') ->
  exists s1' op', step' s' c' = Ok (s1', op') /\ Forall2 seen (spec_opened w' c') op' /\
    twin bs s1 s1' (spec_step w c) (spec_step w' c') (kind_step k c) /\
    o_msgs_gen sigma aes' delta s' c' = o_msgs_gen sigma aes delta s c /\
    o_msgs_eva sigma aes' Hash Kc rnd lab delta s' c' = o_msgs_eva sigma aes Hash Kc rnd lab delta s c /\
    og_gid s1 = og_gid s + N.of_nat (live_and k c) /\
    clean_step sigma aes' Hash fixk Kc rnd lab delta s' w' k c'.
Proof.
  intros T Sh Bob Wf Cl St Sp Gt Told.
  assert (T0 := T). destruct T0 as (I1 & I2 & EW & EF & GF & GI).
  destruct (inv_len _ _ _ _ I1) as (LG & LE & LK). destruct (inv_len _ _ _ _ I2) as (LG' & LE' & LK').
  assert (Lw : length w' = length w) by congruence.
  destruct (opt_step sigma aes Hash fixk Kc rnd lab delta Hd Bd Bs Ba Bf Bk Bl bs s w k c I1 Wf Cl) as (s1x & opx & St' & _ & J1 & Gid).
  rewrite St in St'. injection St' as <- <-.
  assert (Fin : clean_step sigma aes' Hash fixk Kc rnd lab delta s' w' k c' /\
    (forall s1' op', step' s' c' = Ok (s1', op') -> oe_w s1' = oe_w s1 /\ oe_f s1' = oe_f s1 /\ og_f s1' = og_f s1 /\ og_gid s1' = og_gid s1) /\
    o_msgs_gen sigma aes' delta s' c' = o_msgs_gen sigma aes delta s c /\
    o_msgs_eva sigma aes' Hash Kc rnd lab delta s' c' = o_msgs_eva sigma aes Hash Kc rnd lab delta s c).
  2:{ destruct Fin as (Cl' & Ek & M1 & M2). assert (Wf' : wf_instr (length w') c' = true) by (rewrite Lw, (wf_shape _ c c' Sh); exact Wf).
      destruct (opt_step sigma aes' Hash fixk Kc rnd lab delta Hd Bd Bs Ba' Bf Bk Bl bs s' w' k c' I2 Wf' Cl') as (s1' & op' & St' & Sn & J2 & _).
      exists s1', op'. split; [exact St'|]. split; [exact Sn|]. split; [|repeat (split; [first [exact M1|exact M2|exact Gid]|]); exact Cl']. specialize (Ek s1' op' St'). rewrite (kind_shape k c c' Sh) in J2.
      unfold twin. tauto. }
  destruct I1 as (Q & ps & F & Ew & Ekk & Hg & He & Hi & C1 & C2 & Hf). destruct I2 as (Q' & ps' & F' & Ew' & Ekk' & Hg' & He' & Hi' & C1' & C2' & Hf').
  destruct Cl as [Cx Cl]. rewrite St in Cl.
  destruct c' as [b|p bits|i j|i j|i|p ws].
  - (* constant *)
    apply shape_other in Sh. subst c. cbn [o_step] in St. injection St as <- <-.
    split; [split; [exact I|]|split; [|split; reflexivity]].
    + cbn [o_step]. intros i Hr Hk. cbn [kind_step new_wires] in *. assert (i = length k) by lia. subst i. unfold kind in Hk. rewrite nth_last in Hk. discriminate.
    + intros s1' op' E. cbn [o_step] in E. injection E as <- _. cbn. now rewrite EW.
  - apply shape_feed in Sh. destruct Sh as (b0 & -> & Lb). destruct p.
    + (* the garbler's inputs *)
      cbn [o_step eva_feed gen_feed bind] in St. injection St as <- <-. cbn [oe_w og_w] in *.
      assert (Len : length (map lab (seq (f_shared (og_f s)) (length b0))) = length b0) by apply len_map_seq.
      split; [split; [exact I|]|split; [|split]].
      * cbn [o_step eva_feed gen_feed bind og_w oe_w]. intros i Hr Hk. cbn [new_wires kind_step] in *. rewrite EW, EF, GF, <- Lb, Lw in *.
        assert (Kx : kind (k ++ repeat None (length b0)) i = None) by exact Hk.
        specialize (Cl i ltac:(lia) Kx). specialize (Sp i ltac:(lia) Kx). destruct Cl as [_ Cl]. split; [|exact Cl].
        unfold lbl in *. rewrite app_nth2 in * by lia. rewrite LG', LE in *. rewrite flip_evl. rewrite ?Lw.
        assert (SS : f_shared (oe_f s) = f_shared (og_f s)) by (destruct Hf as (_ & _ & _ & _ & _ & _ & _ & X1 & X2 & _); congruence).
        rewrite SS in *.
        change (~ special (lbl (evl delta (map lab (seq (f_shared (og_f s)) (length b0))) bits) (i - length w))).
        rewrite evl_nth by lia. now apply nonspecial_sel.
      * intros s1' op' E. cbn [o_step eva_feed gen_feed bind] in E. injection E as <- _. cbn [oe_w oe_f og_f og_gid]. now rewrite EW, EF, GF, Lb.
      * reflexivity.
      * cbn [o_msgs_eva eva_feed]. reflexivity.
    + (* the evaluator's inputs *)
      injection Bob as ->. assert (St0 := St). cbn [o_step] in St0. rewrite C2 in St0. cbn [app] in St0.
      destruct (eva_feed Kc rnd lab delta BOB b0 (oe_f s)) as [[[le fe] m]| |] eqn:E1; cbn [bind] in St0; try discriminate.
      destruct (gen_feed Kc lab delta BOB b0 (og_f s) m) as [[[lg fg] ch]| |] eqn:E2; cbn [bind] in St0; try discriminate.
      injection St0 as <- <-. cbn [og_w oe_w oe_f og_f og_gid] in *.
      assert (X : step' s' (IFeed BOB b0) = Ok ({| og_w := og_w s' ++ lg; og_gid := og_gid s'; og_f := fg; oe_w := oe_w s' ++ le; oe_gid := oe_gid s'; oe_f := fe; o_ge := o_ge s'; o_eg := ch |}, [])).
      { cbn [o_step]. rewrite EF, E1. cbn [bind]. rewrite C2', GF. cbn [app]. rewrite E2. reflexivity. }
      split; [split; [exact I|]|split; [|split]].
      * rewrite X. cbn [og_w oe_w]. intros i Hr Hk. rewrite Lw in Hr. specialize (Cl i Hr Hk). unfold lbl in *. cbn [new_wires] in Hr.
        rewrite app_nth2 in * by lia. rewrite app_nth2 in * by lia. rewrite LG', LE', LG, LE, Lw in *. exact Cl.
      * intros s1' op' E. rewrite X in E. injection E as <- _. cbn. now rewrite EW.
      * reflexivity.
      * cbn [o_msgs_eva]. now rewrite EF.
    + discriminate.
  - (* AND *)
    apply shape_other in Sh. subst c. cbn [wf_instr] in Wf. apply andb_prop in Wf. destruct Wf as [W1 W2]. apply Nat.ltb_lt in W1, W2.
    assert (LQ : length Q = length w) by (rewrite Ew; symmetry; apply map_length). assert (LQ' : length Q' = length w) by (rewrite <- Lw, Ew'; symmetry; apply map_length).
    assert (A := and_twin (nth i Q q0) (nth j Q q0) (nth i Q' q0) (nth j Q' q0) (og_gid s)).
    assert (Ei : forall x, qe (nth x Q' q0) = qe (nth x Q q0)) by (intro x; rewrite <- !lbl_e, <- He, <- He'; now rewrite EW).
    assert (Ki : forall x, qk (nth x Q' q0) = qk (nth x Q q0)) by (intro x; rewrite <- !kind_q; congruence).
    specialize (fun L => A ltac:(apply nth_q; [lia|assumption]) ltac:(apply nth_q; [lia|assumption]) ltac:(apply nth_q; [lia|assumption]) ltac:(apply nth_q; [lia|assumption]) (Ei i) (Ei j) (Ki i) (Ki j) L).
    rewrite (Ei i), (Ei j) in A.
    rewrite <- !lbl_g, <- !kind_q, <- !lbl_e, <- Hg, <- Hg', <- He, <- Ekk in A.
    assert (A0 : kind k i = None -> kind k j = None -> live_ok (og_gid s) (nth i Q q0) (nth j Q q0) (nth i Q' q0) (nth j Q' q0)).
    { intros K1 K2. specialize (Gt i j eq_refl K1 K2). unfold gate_ok in Gt. unfold live_ok.
      rewrite <- !lbl_e, <- !wire_q, <- He, <- Ew, <- Ew'. exact Gt. }
    specialize (A A0). clear A0.
    destruct (og_and sigma aes delta (lbl (og_w s) i) (lbl (og_w s) j) (og_gid s)) as [[o gid1] m] eqn:O1.
    destruct (og_and sigma aes' delta (lbl (og_w s') i) (lbl (og_w s') j) (og_gid s)) as [[o' gid1'] m'] eqn:O2.
    destruct A as (-> & -> & oe & A1 & A2 & A3).
    assert (St0 := St). cbn [o_step] in St0. rewrite O1, C1, <- Hi in St0. cbn [app] in St0. rewrite A1 in St0. cbn [bind fst snd] in St0.
    injection St0 as <- <-. cbn [og_w oe_w oe_f og_f og_gid] in *.
    assert (X : step' s' (IAnd i j) = Ok ({| og_w := og_w s' ++ [o']; og_gid := gid1; og_f := og_f s'; oe_w := oe_w s' ++ [oe]; oe_gid := gid1; oe_f := oe_f s'; o_ge := []; o_eg := o_eg s' |}, [])).
    { cbn [o_step]. rewrite GI, O2, C1', <- Hi', GI, EW. cbn [app]. rewrite A2. reflexivity. }
    split; [split; [exact I|]|split; [|split]].
    + rewrite X. cbn [og_w oe_w]. intros x Hr Hk. cbn [new_wires] in *. rewrite Lw in Hr. specialize (Cl x Hr Hk). specialize (Sp x Hr Hk).
      assert (x = length w) by lia. subst x. unfold lbl in *. rewrite !last_g in * by congruence. split; [|tauto].
      apply A3; [|tauto|exact Sp]. cbn [kind_step] in Hk. unfold kind in Hk at 1. rewrite last_g in Hk by congruence. rewrite <- Hk.
      unfold and_kind. destruct (kind k i) as [[]|], (kind k j) as [[]|]; reflexivity.
    + intros s1' op' E. rewrite X in E. injection E as <- _. cbn. now rewrite EW.
    + cbn [o_msgs_gen o_sent]. now rewrite GI, O1, O2.
    + reflexivity.
  - (* XOR *)
    apply shape_other in Sh. subst c. cbn [wf_instr] in Wf. apply andb_prop in Wf. destruct Wf as [W1 W2]. apply Nat.ltb_lt in W1, W2.
    assert (LQ : length Q = length w) by (rewrite Ew; symmetry; apply map_length). assert (LQ' : length Q' = length w) by (rewrite <- Lw, Ew'; symmetry; apply map_length).
    assert (A := xor_twin (nth i Q q0) (nth j Q q0) (nth i Q' q0) (nth j Q' q0)).
    assert (Ei : forall x, qe (nth x Q' q0) = qe (nth x Q q0)) by (intro x; rewrite <- !lbl_e, <- He, <- He'; now rewrite EW).
    assert (Ki : forall x, qk (nth x Q' q0) = qk (nth x Q q0)) by (intro x; rewrite <- !kind_q; congruence).
    specialize (fun L => A ltac:(apply nth_q; [lia|assumption]) ltac:(apply nth_q; [lia|assumption]) ltac:(apply nth_q; [lia|assumption]) ltac:(apply nth_q; [lia|assumption]) (Ei i) (Ei j) (Ki i) (Ki j) L).
    unfold xor_clean in A. rewrite (Ki i), (Ki j) in A.
    rewrite <- !lbl_g, <- !kind_q, <- !lbl_e, <- !wire_q, <- Hg, <- Hg', <- He, <- Ekk, <- Ew, <- Ew' in A.
    specialize (A Cx). destruct A as [A1 A2].
    cbn [o_step] in St. injection St as <- <-. cbn [og_w oe_w oe_f og_f og_gid] in *.
    split; [split; [exact A1|]|split; [|split; reflexivity]].
    + cbn [o_step og_w oe_w]. intros x Hr Hk. cbn [new_wires] in *. rewrite Lw in Hr. specialize (Cl x Hr Hk). specialize (Sp x Hr Hk).
      assert (x = length w) by lia. subst x. rewrite EW. unfold lbl at 1 4 in Cl. unfold lbl at 1 in Sp. unfold lbl at 1 4.
      rewrite last_g in Sp by congruence. rewrite !last_g by congruence. destruct Cl as [_ Cl]. rewrite last_g in Cl by congruence. split; [|exact Cl].
      apply A2; [|exact Cl|exact Sp]. cbn [kind_step] in Hk. unfold kind in Hk at 1. rewrite last_g in Hk by congruence. rewrite <- Hk. reflexivity.
    + intros s1' op' E. cbn [o_step] in E. injection E as <- _. cbn. now rewrite EW.
  - (* NOT *)
    apply shape_other in Sh. subst c. cbn [wf_instr] in Wf. apply Nat.ltb_lt in Wf.
    assert (LQ : length Q = length w) by (rewrite Ew; symmetry; apply map_length). assert (LQ' : length Q' = length w) by (rewrite <- Lw, Ew'; symmetry; apply map_length).
    cbn [o_step] in St. injection St as <- <-. cbn [og_w oe_w oe_f og_f og_gid] in *.
    split; [split; [exact I|]|split; [|split; reflexivity]].
    + cbn [o_step og_w oe_w]. intros x Hr Hk. cbn [new_wires] in *. rewrite Lw in Hr. specialize (Cl x Hr Hk). specialize (Sp x Hr Hk).
      assert (x = length w) by lia. subst x. rewrite EW. destruct Cl as [_ Cl]. unfold lbl at 1 in Cl. unfold lbl at 1 in Sp. unfold lbl at 1 3.
      rewrite last_g in Cl, Sp by congruence. rewrite !last_g by congruence. split; [|exact Cl].
      cbn [kind_step] in Hk. unfold kind in Hk at 1. rewrite last_g in Hk by congruence.
      assert (Kn : kind k i = None) by (destruct (kind k i); [discriminate|reflexivity]).
      assert (Ei : qe (nth i Q' q0) = qe (nth i Q q0)) by (rewrite <- !lbl_e, <- He, <- He'; now rewrite EW).
      assert (R := nth_q delta Q i ltac:(lia) F). assert (R' := nth_q delta Q' i ltac:(lia) F').
      assert (Se : ~ special (lbl (oe_w s) i)).
      { rewrite He, lbl_e. unfold rel in R. rewrite <- kind_q, <- Ekk, Kn in R. tauto. }
      unfold oe_not in Cl, Sp. rewrite (isZero_no _ Se), (isOne_no _ Se) in Cl, Sp.
      rewrite Hg', lbl_g. apply (not_twin (nth i Q q0)); try assumption.
      * rewrite <- kind_q. congruence.
      * now rewrite <- lbl_e, <- He.
      * now rewrite <- lbl_e, <- He.
    + intros s1' op' E. cbn [o_step] in E. injection E as <- _. cbn. now rewrite EW.
  - (* opening *)
    apply shape_other in Sh. subst c. assert (RK := reveal_keeps _ _ _ _ _ _ St). destruct RK as (R1 & R2 & R3 & R4 & R5).
    assert (MG : o_msgs_gen sigma aes' delta s' (IReveal p ws) = o_msgs_gen sigma aes delta s (IReveal p ws)).
    { cbn [wf_instr] in Wf. destruct p; [reflexivity| |]; cbn in Told; injection Told as Told; cbn [o_msgs_gen]; now rewrite (same_g bs s s' w w' k ws T Wf Told). }
    split; [split; [exact I|]|split; [|split; [exact MG|]]].
    + destruct (step' s' (IReveal p ws)) as [[s2 o2]| |]; try exact I. intros x Hr. cbn [new_wires] in Hr. lia.
    + intros s1' op' E. assert (RK := reveal_keeps _ _ _ _ _ _ E). destruct RK as (R1' & R2' & R3' & R4' & R5'). rewrite R2, R3, R4, R5, R2', R3', R4', R5'. auto.
    + unfold o_msgs_eva. rewrite MG, EW, C1, C1'. reflexivity.
Qed.

(** *** Whole runs *)
Lemma kind_grows prog : forall k, exists tl, fold_left kind_step prog k = k ++ tl.
Proof.
  induction prog as [|c t IH]; intro k; [exists []; symmetry; apply app_nil_r|]. cbn [fold_left]. destruct (IH (kind_step k c)) as (tl & ->).
  assert (X : exists x, kind_step k c = k ++ x) by (destruct c; cbn [kind_step]; try (eexists; reflexivity); exists []; symmetry; apply app_nil_r).
  destruct X as (x & ->). exists (x ++ tl). symmetry. apply app_assoc.
Qed.
Lemma step_grows ae s c s1 op : o_step sigma ae Hash fixk Kc rnd lab delta s c = Ok (s1, op) -> exists x, oe_w s1 = oe_w s ++ x.
Proof.
  destruct c as [b|p bits|i j|i j|i|p ws]; intro H.
  - injection H as <- _. eexists; reflexivity.
  - cbn [o_step] in H. destruct (eva_feed _ _ _ _ _ _ _) as [[[le fe] m]| |]; cbn [bind] in H; try discriminate.
    destruct (gen_feed _ _ _ _ _ _ _) as [[[lg fg] ch]| |]; cbn [bind] in H; try discriminate. injection H as <- _. eexists; reflexivity.
  - cbn [o_step] in H. destruct (og_and _ _ _ _ _ _) as [[o g] m]. destruct (oe_and _ _ _ _ _ _) as [[x ch]| |]; cbn [bind] in H; try discriminate. injection H as <- _. eexists; reflexivity.
  - injection H as <- _. eexists; reflexivity.
  - injection H as <- _. eexists; reflexivity.
  - apply reveal_keeps in H. destruct H as (_ & -> & _). exists []. symmetry. apply app_nil_r.
Qed.
Lemma run_grows ae prog : forall s s1 op, o_run sigma ae Hash fixk Kc rnd lab delta s prog = Ok (s1, op) -> exists x, oe_w s1 = oe_w s ++ x.
Proof.
  induction prog as [|c t IH]; intros s s1 op H; cbn [o_run] in H.
  - injection H as <- _. exists []. symmetry. apply app_nil_r.
  - destruct (o_step sigma ae Hash fixk Kc rnd lab delta s c) as [[s2 o2]| |] eqn:E; cbn [bind] in H; try discriminate.
    destruct (o_run sigma ae Hash fixk Kc rnd lab delta s2 t) as [[s3 o3]| |] eqn:E3; cbn [bind] in H; try discriminate. injection H as <- _.
    destruct (step_grows _ _ _ _ _ E) as (x & X). destruct (IH _ _ _ E3) as (y & ->). rewrite X. exists (x ++ y). symmetry. apply app_assoc.
Qed.
Lemma twin_run bs : forall prog prog' s s' w w' k sf op,
  twin bs s s' w w' k -> map shape prog = map shape prog' -> inputs_of BOB prog = inputs_of BOB prog' -> wf (length w) prog = true ->
  clean_run sigma aes Hash fixk Kc rnd lab delta s w k prog -> o_run sigma aes Hash fixk Kc rnd lab delta s prog = Ok (sf, op) ->
  let W := fst (spec_run w prog) in let W' := fst (spec_run w' prog') in
  (forall i, (i < length (oe_w sf))%nat -> kind (fold_left kind_step prog k) i = None -> ~ special (N.lxor (lbl (oe_w sf) i) delta)) ->
  (forall x, In x (live_gates (og_gid s) k prog) -> gate_ok sigma aes delta aes' (oe_w sf) W W' x) ->
  told BOB (snd (spec_run w prog)) = told BOB (snd (spec_run w' prog')) ->
  exists sf' op', o_run sigma aes' Hash fixk Kc rnd lab delta s' prog' = Ok (sf', op') /\ Forall2 seen (snd (spec_run w' prog')) op' /\
    twin bs sf sf' W W' (fold_left kind_step prog k) /\
    o_msgs sigma aes' Hash fixk Kc rnd lab delta s' prog' = o_msgs sigma aes Hash fixk Kc rnd lab delta s prog /\
    clean_run sigma aes' Hash fixk Kc rnd lab delta s' w' k prog'.
Proof.
  induction prog as [|c t IH]; intros [|c' t'] s s' w w' k sf op T Sh Bi Wf Cl R W W' Sp Gt Told; try discriminate.
  - cbn in R. injection R as <- <-. exists s', []. repeat split; try apply T. constructor.
  - cbn [map] in Sh. injection Sh as Sc Sh. cbn [wf] in Wf. apply andb_prop in Wf. destruct Wf as [Wf1 Wf2]. cbn [clean_run] in Cl. destruct Cl as [Cl1 Cl2].
    cbn [o_run] in R. destruct (step s c) as [[s1 o1]| |] eqn:St; cbn [bind] in R; try discriminate.
    destruct (o_run sigma aes Hash fixk Kc rnd lab delta s1 t) as [[s2 o2]| |] eqn:Rt; cbn [bind] in R; try discriminate. injection R as <- <-.
    assert (LI := inv_len _ _ _ _ (proj1 T)). destruct LI as (LG & LE & LK).
    assert (Bc : (match c with IFeed BOB _ => c' = c | _ => True end) /\ inputs_of BOB t = inputs_of BOB t').
    { unfold inputs_of in *. cbn [flat_map] in Bi. destruct c as [|[] bits| | | |]; destruct c' as [|[] bits'| | | |]; cbn in Sc; try discriminate; cbn [app] in Bi; try (split; [exact I|exact Bi]).
      injection Bi as -> Bi. split; [reflexivity|exact Bi]. }
    destruct Bc as [Bc Bt].
    assert (EW : W = fst (spec_run (spec_step w c) t)) by (unfold W; cbn [spec_run]; destruct (spec_run (spec_step w c) t); reflexivity).
    assert (EW' : W' = fst (spec_run (spec_step w' c') t')) by (unfold W'; cbn [spec_run]; destruct (spec_run (spec_step w' c') t'); reflexivity).
    destruct (spec_grows (c :: t) w) as (tw & Ew). fold W in Ew. destruct (spec_grows (c' :: t') w') as (tw' & Ew'). fold W' in Ew'.
    assert (Lw : length w' = length w) by (destruct (inv_len _ _ _ _ (proj1 (proj2 T))) as (_ & _ & ?); congruence).
    assert (Tl : told BOB (spec_opened w c) = told BOB (spec_opened w' c') /\ told BOB (snd (spec_run (spec_step w c) t)) = told BOB (snd (spec_run (spec_step w' c') t'))).
    { cbn [spec_run] in Told. destruct (spec_run (spec_step w c) t) as [a1 a2], (spec_run (spec_step w' c') t') as [b1 b2]. cbn [snd] in *.
      rewrite !told_app in Told. apply app_split in Told; [exact Told|].
      clear - Sc. destruct c as [| | | | |pc wc], c' as [| | | | |pd wd]; cbn in Sc; try discriminate; try reflexivity. injection Sc as -> ->. destruct pd; reflexivity. }
    destruct Tl as [Tl1 Tl2].
    destruct (run_grows _ _ _ _ _ Rt) as (x2 & X2). destruct (step_grows _ _ _ _ _ St) as (x1 & X1).
    destruct (kind_grows t (kind_step k c)) as (xk & Xk). cbn [fold_left] in Sp |- *.
    assert (Lk1 : length (kind_step k c) = (length w + new_wires c)%nat).
    { destruct c; cbn [kind_step new_wires]; rewrite ?app_length, ?repeat_length; cbn [length]; lia. }
    assert (Lo : length (oe_w s1) = (length w + new_wires c)%nat).
    { destruct (opt_step sigma aes Hash fixk Kc rnd lab delta Hd Bd Bs Ba Bf Bk Bl bs s w k c (proj1 T) Wf1 Cl1) as (s1x & opx & St' & _ & J1 & Gid).
      rewrite St in St'. injection St' as <- <-. destruct (inv_len _ _ _ _ J1) as (_ & J & _). rewrite J. apply spec_step_length. }
    destruct (twin_step bs s s' w w' k c c' s1 o1 T Sc Bc Wf1 Cl1 St) as (s1' & o1' & St' & Sn & T1 & M1 & M2 & Gid & Cl').
    { intros i Hi Ki. specialize (Sp i). rewrite X2, app_length in Sp. unfold lbl in *. rewrite app_nth1 in Sp by lia. apply Sp; [lia|].
      rewrite Xk. unfold kind in *. rewrite app_nth1 by lia. exact Ki. }
    { intros i j -> Ki Kj. assert (G := Gt (og_gid s, i, j)). cbn [live_gates] in G. rewrite Ki, Kj in G. specialize (G ltac:(left; reflexivity)).
      cbn [wf_instr] in Wf1. apply andb_prop in Wf1. destruct Wf1 as [W1 W2]. apply Nat.ltb_lt in W1, W2.
      unfold gate_ok in *. rewrite X2, X1, <- app_assoc, Ew, Ew' in G. unfold wire in *. rewrite !app_nth1 in G by lia. exact G. }
    { exact Tl1. }
    rewrite <- spec_step_length in Wf2.
    specialize (IH t' s1 s1' (spec_step w c) (spec_step w' c') (kind_step k c) s2 o2 T1 Sh Bt Wf2 Cl2 Rt Sp). cbn zeta in IH.
    rewrite <- EW, <- EW' in IH. specialize (fun G => IH G Tl2).
    destruct IH as (sf' & op' & R' & Sn' & T' & M' & Cr').
    { intros x Hx. apply Gt. cbn [live_gates]. apply in_or_app. right. rewrite <- Gid. exact Hx. }
    exists sf', (o1' ++ op'). cbn [o_run]. rewrite St'. cbn [bind]. rewrite R'. cbn [bind]. split; [reflexivity|]. split; [|split; [exact T'|split]].
    + cbn [spec_run]. destruct (spec_run (spec_step w' c') t') as [b1 b2]. cbn [snd] in *. now apply Forall2_app.
    + cbn [o_msgs]. rewrite St, St', M', M1, M2. reflexivity.
    + cbn [clean_run]. split; [exact Cl'|]. rewrite St', (kind_shape k c c' Sc). exact Cr'.
Qed.
End EV.

Section EVIEW.
Variables (sigma aes : N -> N) (Hash : list N -> N) (fixk Kc : nat -> N) (rnd : nat -> bool) (lab : nat -> N) (delta : N).
Lemma shift_blk gs l w w' p : blk delta -> blk (shift sigma delta gs l w w' p).
Proof.
  intro Bd. unfold shift, differences. induction gs as [|[[k i] j] gs IH]; [reflexivity|]. cbn [flat_map app fold_right fst snd].
  repeat match goal with |- context [if ?b then _ else _] => destruct b end; rewrite ?N.lxor_0_l; try assumption; repeat apply blk_xor; assumption.
Qed.
Theorem streaming_evaluator_view : getLSB delta = true -> blk delta ->
  (forall x, blk (sigma x)) -> (forall x, blk (aes x)) -> (forall i, blk (fixk i)) -> (forall i, blk (Kc i)) -> (forall i, blk (lab i)) ->
  forall bs on1 on2, map shape on1 = map shape on2 -> inputs_of BOB on1 = inputs_of BOB on2 -> wf 0 on1 = true ->
  let W := fst (spec_run [] on1) in let W' := fst (spec_run [] on2) in
  told BOB (snd (spec_run [] on1)) = told BOB (snd (spec_run [] on2)) ->
  let s0 := o_init Kc rnd delta bs in
  clean_run sigma aes Hash fixk Kc rnd lab delta s0 [] [] on1 ->
  forall s op, o_run sigma aes Hash fixk Kc rnd lab delta s0 on1 = Ok (s, op) ->
  let l := oe_w s in let gs := live_gates 0 [] on1 in
  (forall i, (i < length l)%nat -> kind (fold_left kind_step on1 []) i = None -> ~ special (N.lxor (lbl l i) delta)) ->
  NoDup (unknown_points sigma delta gs l) -> (forall p, In p (unknown_points sigma delta gs l) -> ~ In p (known_points sigma gs l)) ->
  let aes' p := N.lxor (aes p) (shift sigma delta gs l W W' p) in
  exists s' op', o_run sigma aes' Hash fixk Kc rnd lab delta s0 on2 = Ok (s', op') /\
    Forall2 seen (snd (spec_run [] on2)) op' /\ oe_w s' = oe_w s /\ oe_f s' = oe_f s /\
    o_msgs sigma aes' Hash fixk Kc rnd lab delta s0 on2 = o_msgs sigma aes Hash fixk Kc rnd lab delta s0 on1 /\
    clean_run sigma aes' Hash fixk Kc rnd lab delta s0 [] [] on2 /\ (forall x, blk (aes' x)).
Proof.
  intros Hd Bd Bs Ba Bf Bk Bl bs on1 on2 Sh Bi Wf W W' Told s0 Cl s op R l gs Sp ND DJ aes'.
  assert (Ba' : forall x, blk (aes' x)) by (intro x; apply blk_xor; [apply Ba|now apply shift_blk]).
  assert (H0 : oinv Kc rnd delta bs s0 [] []).
  { exists [], (pos_init bs). split; [constructor|]. repeat (split; [reflexivity|]). apply finv_init. }
  destruct (twin_run sigma aes aes' Hash fixk Kc rnd lab delta Hd Bd Bs Ba Ba' Bf Bk Bl bs on1 on2 s0 s0 [] [] [] s op) as (s' & op' & R' & Sn & T & M & Cr); try assumption.
  - unfold twin. tauto.
  - intros [[k i] j] X. fold W W' l. unfold gate_ok, aes'.
    assert (K : forall p, In p (known_points sigma gs l) -> shift sigma delta gs l W W' p = 0) by (intros p Hp; apply shift_off; intro U; exact (DJ p U Hp)).
    assert (U : forall p v, In (p, v) (differences sigma delta gs l W W') -> shift sigma delta gs l W W' p = v).
    { intros p v Hp. apply fold_at; [|exact Hp]. rewrite diff_points. exact ND. }
    split; [|split; [|split]].
    + rewrite K; [apply N.lxor_0_r|]. unfold known_points. apply in_flat_map. exists (k, i, j). split; [exact X|left; reflexivity].
    + rewrite K; [apply N.lxor_0_r|]. unfold known_points. apply in_flat_map. exists (k, i, j). split; [exact X|right; left; reflexivity].
    + f_equal. apply U. unfold differences. apply in_flat_map. exists (k, i, j). split; [exact X|left; reflexivity].
    + f_equal. apply U. unfold differences. apply in_flat_map. exists (k, i, j). split; [exact X|right; left; reflexivity].
  - exists s', op'. split; [exact R'|]. split; [exact Sn|]. destruct T as (_ & _ & T1 & T2 & _). auto 10.
Qed.
Lemma live_gates_shape on1 : forall on2 n k, map shape on1 = map shape on2 -> live_gates n k on2 = live_gates n k on1.
Proof.
  induction on1 as [|c t IH]; intros [|c' t'] n k H; try discriminate; [reflexivity|]. cbn [map] in H. injection H as Hc Ht.
  destruct c' as [b|p bits|i j|i j|i|p ws]; try (apply shape_other in Hc; subst c; cbn [live_gates]; rewrite (IH t' _ _ Ht); reflexivity).
  apply shape_feed in Hc. destruct Hc as (b0 & -> & Lb). cbn [live_gates live_and kind_step]. rewrite Lb, (IH t' _ _ Ht). reflexivity.
Qed.
Theorem streaming_shift_back on1 on2 l W W' : map shape on1 = map shape on2 ->
  let gs1 := live_gates 0 [] on1 in let gs2 := live_gates 0 [] on2 in
  (forall p, shift sigma delta gs2 l W' W p = shift sigma delta gs1 l W W' p) /\
  unknown_points sigma delta gs2 l = unknown_points sigma delta gs1 l /\ known_points sigma gs2 l = known_points sigma gs1 l /\
  fold_left kind_step on2 [] = fold_left kind_step on1 [].
Proof.
  intro H. cbv zeta. rewrite (live_gates_shape on1 on2 0 [] H). split; [|split; [reflexivity|split; [reflexivity|]]].
  - intro p. unfold shift, differences. f_equal.
    induction (live_gates 0 [] on1) as [|[[k i] j] t IH]; [reflexivity|]. cbn [flat_map]. rewrite IH.
    rewrite (xorb_comm (wire W' j)), (xorb_comm (wire W' i)). reflexivity.
  - revert H. generalize (@nil (option bool)). revert on2. induction on1 as [|c t IH]; intros [|c' t'] k H; try discriminate; [reflexivity|].
    cbn [map] in H. injection H as Hc Ht. cbn [fold_left]. rewrite (kind_shape k c c' Hc). now apply IH.
Qed.
End EVIEW.
