(** The garbler's view of the streaming backend fits every input with the same opened values. *)
From Coq Require Import List NArith Bool Arith Lia.
From Verif Require Import L_Bits L_Res L_Xor S_Circuit S_GarbleView M_Block M_Garble M_GarbleTr P_Garble P_GarbleFeed P_GarbleOpt P_GarbleView P_GarbleView2 P_GarbleView3.
Import ListNotations.
Local Open Scope N_scope.

Section GV.
Variables (sigma aes : N -> N) (Hash : list N -> N) (fixk Kc : nat -> N) (rnd rnd' : nat -> bool) (lab : nat -> N) (delta : N).
Hypothesis Hd : getLSB delta = true.
Hypothesis Bd : blk delta.
Hypothesis Bs : forall x, blk (sigma x).
Hypothesis Ba : forall x, blk (aes x).
Hypothesis Bf : forall i, blk (fixk i).
Hypothesis Bk : forall i, blk (Kc i).
Hypothesis Bl : forall i, blk (lab i).
Notation step := (o_step sigma aes Hash fixk Kc rnd lab delta).
Notation step' := (o_step sigma aes Hash fixk Kc rnd' lab delta).
Definition gtwin (bs : nat) (s s' : ostate) (w w' : list bool) (k : list (option bool)) (n : nat) : Prop :=
  oinv Kc rnd delta bs s w k /\ oinv Kc rnd' delta bs s' w' k /\ og_w s' = og_w s /\ og_f s' = og_f s /\ og_gid s' = og_gid s /\
  exists p, finv Kc rnd delta bs p (og_f s) (oe_f s) /\ finv Kc rnd' delta bs p (og_f s') (oe_f s') /\ (p_r0 p + p_top p = n)%nat /\ (p_rnd p = p_r0 p + bs)%nat.

Lemma same_e bs s s' w w' k n ws : gtwin bs s s' w w' k n -> forallb (fun i => (i <? length w)%nat) ws = true -> map (wire w) ws = map (wire w') ws ->
  map (lbl (oe_w s')) ws = map (lbl (oe_w s)) ws.
Proof.
  intros (I1 & I2 & EG & _) Hw Hv. apply map_ext_in. intros i Hi.
  rewrite forallb_forall in Hw. assert (Li := Hw i Hi). apply Nat.ltb_lt in Li.
  assert (L' : length w' = length w) by (destruct (inv_len _ _ _ _ _ _ _ I1) as (_ & _ & L1), (inv_len _ _ _ _ _ _ _ I2) as (_ & _ & L2); congruence).
  destruct (inv_quad _ _ _ _ _ _ _ i I1 Li) as (q & R & V & K & G & E). destruct (inv_quad _ _ _ _ _ _ _ i I2 ltac:(lia)) as (q' & R' & V' & K' & G' & E').
  rewrite <- E, <- E'. assert (VV : wire w i = wire w' i).
  { clear - Hv Hi. induction ws as [|j ws IH]; [destruct Hi|]. cbn [map] in Hv. injection Hv as H1 H2. destruct Hi as [->|Hi]; auto. }
  unfold rel in R, R'. rewrite K in R. rewrite K' in R'. destruct (kind k i) as [b|].
  - destruct R as (_ & _ & ->). destruct R' as (_ & _ & ->). reflexivity.
  - destruct R as (_ & _ & -> & _). destruct R' as (_ & _ & -> & _). rewrite V, V', G, G', EG, VV. reflexivity.
Qed.
(** buffered requests use the random bits in order *)
Lemma take_order bs p n m idx ridx p' : pos_ok bs p -> (p_r0 p + p_top p = n)%nat -> (p_rnd p = p_r0 p + bs)%nat ->
  pos_take bs p m = (idx, ridx, p') ->
  let u := if (bs <? m)%nat then 0%nat else m in
  ridx = seq n u /\ (p_r0 p' + p_top p' = n + u)%nat /\ (p_rnd p' = p_r0 p' + bs)%nat.
Proof.
  intros (P1 & P2 & P3) N1 N2 E. unfold pos_take in E. destruct (bs <? m)%nat eqn:L1; [|destruct (bs - p_top p <? m)%nat eqn:L2].
  - injection E as _ <- <-. cbn. repeat split; lia.
  - apply Nat.ltb_lt in L2. apply Nat.ltb_ge in L1. injection E as _ <- <-. cbn. split; [|lia].
    replace m with ((bs - p_top p) + (m - (bs - p_top p)))%nat at 2 by lia. rewrite seq_app, N1, N2. f_equal. f_equal. lia.
  - injection E as _ <- <-. cbn. rewrite N1. repeat split; lia.
Qed.
Lemma corr_same n b b' : length b' = length b -> (forall m, (m < length b)%nat -> xorb (rnd' (n + m)%nat) (nth m b' false) = xorb (rnd (n + m)%nat) (nth m b false)) ->
  map2 xorb (map rnd' (seq n (length b))) b' = map2 xorb (map rnd (seq n (length b))) b.
Proof.
  revert n b'. induction b as [|x b IH]; intros n [|x' b'] L H; try discriminate; [reflexivity|]. cbn [length seq map map2]. f_equal.
  - specialize (H 0%nat ltac:(cbn; lia)). rewrite Nat.add_0_r in H. exact H.
  - apply IH; [cbn in L; lia|]. intros m Hm. specialize (H (S m) ltac:(cbn; lia)). rewrite <- plus_n_Sm in H. exact H.
Qed.

Definition took (bs : nat) (c : instr) : nat := length (buffered_inputs bs [c]).
Lemma gtwin_step bs s s' w w' k n c c' : gtwin bs s s' w w' k n -> shape c = shape c' ->
  (match c with IFeed ALICE _ => c' = c | _ => True end) -> wf_instr (length w) c = true ->
  clean_step sigma aes Hash fixk Kc rnd lab delta s w k c -> clean_step sigma aes Hash fixk Kc rnd' lab delta s' w' k c' ->
  (forall m, (m < took bs c)%nat -> xorb (rnd' (n + m)%nat) (nth m (buffered_inputs bs [c']) false) = xorb (rnd (n + m)%nat) (nth m (buffered_inputs bs [c]) false)) ->
  told ALICE (spec_opened w c) = told ALICE (spec_opened w' c') ->
  exists s1 op s1' op', step s c = Ok (s1, op) /\ step' s' c' = Ok (s1', op') /\
    gtwin bs s1 s1' (spec_step w c) (spec_step w' c') (kind_step k c) (n + took bs c) /\
    o_msgs_gen sigma aes delta s' c' = o_msgs_gen sigma aes delta s c /\
    o_msgs_eva sigma aes Hash Kc rnd' lab delta s' c' = o_msgs_eva sigma aes Hash Kc rnd lab delta s c.
Proof.
  intros T Sh Al Wf Cl Cl' Rb Told.
  assert (T0 := T). destruct T0 as (I1 & I2 & EG & GF & GI & p & Fp & Fp' & Pn & Pr).
  destruct (inv_len _ _ _ _ _ _ _ I1) as (LG & LE & LK). destruct (inv_len _ _ _ _ _ _ _ I2) as (LG' & LE' & LK').
  assert (Lw : length w' = length w) by congruence.
  assert (Wf' : wf_instr (length w') c' = true) by (rewrite Lw, (wf_shape _ c c' Sh); exact Wf).
  destruct (opt_step sigma aes Hash fixk Kc rnd lab delta Hd Bd Bs Ba Bf Bk Bl bs s w k c I1 Wf Cl) as (s1 & op & St & _ & J1 & Gid).
  destruct (opt_step sigma aes Hash fixk Kc rnd' lab delta Hd Bd Bs Ba Bf Bk Bl bs s' w' k c' I2 Wf' Cl') as (s1' & op' & St' & _ & J2 & Gid').
  exists s1, op, s1', op'. split; [exact St|]. split; [exact St'|]. rewrite (kind_shape k c c' Sh) in J2.
  destruct I1 as (Q & ps & F & Ew & Ekk & Hg & He & Hi & C1 & C2 & Hf). destruct I2 as (Q' & ps' & F' & Ew' & Ekk' & Hg' & He' & Hi' & C1' & C2' & Hf').
  assert (Fin : (og_w s1' = og_w s1 /\ og_f s1' = og_f s1 /\ og_gid s1' = og_gid s1 /\
      exists p, finv Kc rnd delta bs p (og_f s1) (oe_f s1) /\ finv Kc rnd' delta bs p (og_f s1') (oe_f s1') /\ (p_r0 p + p_top p = n + took bs c)%nat /\ (p_rnd p = p_r0 p + bs)%nat) /\
    o_msgs_gen sigma aes delta s' c' = o_msgs_gen sigma aes delta s c /\
    o_msgs_eva sigma aes Hash Kc rnd' lab delta s' c' = o_msgs_eva sigma aes Hash Kc rnd lab delta s c).
  2:{ destruct Fin as (F1 & F2). split; [|exact F2]. split; [exact J1|]. split; [exact J2|]. exact F1. }
  assert (Same : forall s2 s2' : ostate, og_f s2 = og_f s -> og_f s2' = og_f s' -> oe_f s2 = oe_f s -> oe_f s2' = oe_f s' -> took bs c = 0%nat ->
    exists p, finv Kc rnd delta bs p (og_f s2) (oe_f s2) /\ finv Kc rnd' delta bs p (og_f s2') (oe_f s2') /\ (p_r0 p + p_top p = n + took bs c)%nat /\ (p_rnd p = p_r0 p + bs)%nat).
  { intros s2 s2' -> -> -> -> ->. exists p. rewrite Nat.add_0_r. auto. }
  destruct c' as [b|pt bits|i j|i j|i|pt ws].
  - apply shape_other in Sh. subst c. cbn [o_step] in St, St'. injection St as <- _. injection St' as <- _. cbn [og_w og_f og_gid].
    split; [|split; reflexivity]. rewrite EG. repeat (split; [assumption || reflexivity|]). exact (Same s s' eq_refl eq_refl eq_refl eq_refl eq_refl).
  - apply shape_feed in Sh. destruct Sh as (b0 & -> & Lb). destruct pt.
    + injection Al as <-.
      destruct (feed_alice Kc rnd lab delta bs p _ _ bits Fp) as (fe & fg & E1 & E2 & _ & E4).
      destruct (feed_alice Kc rnd' lab delta bs p _ _ bits Fp') as (fe' & fg' & E1' & E2' & _ & E4').
      cbn [o_step] in St, St'. rewrite E1 in St. rewrite E1' in St'. cbn [bind] in St, St'. rewrite E2 in St. rewrite E2' in St'. cbn [bind] in St, St'.
      injection St as <- _. injection St' as <- _. cbn [og_w og_f og_gid oe_f].
      assert (X : fg' = fg). { specialize (E2 []). specialize (E2' []). rewrite GF, E2 in E2'. now injection E2' as <-. } subst fg'.
      rewrite EG, GI. split; [|split; [reflexivity|]].
      * repeat (split; [reflexivity|]). eexists. split; [exact E4|]. split; [exact E4'|]. cbn. lia.
      * cbn [o_msgs_eva]. rewrite E1, E1'. reflexivity.
    + assert (Hb := feed_bob Kc rnd lab delta bs p _ _ b0 Fp). assert (Hb' := feed_bob Kc rnd' lab delta bs p _ _ bits Fp'). rewrite <- Lb in Hb'.
      destruct (pos_take bs p (length b0)) as [[idx ridx] p1] eqn:PT.
      assert (TO := take_order bs p n (length b0) idx ridx p1 (proj1 Fp) Pn Pr PT). cbn zeta in TO. destruct TO as (-> & O2 & O3).
      assert (TK : took bs (IFeed BOB b0) = if (bs <? length b0)%nat then 0%nat else length b0).
      { unfold took, buffered_inputs. cbn [flat_map]. rewrite app_nil_r. now destruct (bs <? length b0)%nat. }
      assert (CS : (bs <? length b0)%nat = false -> map2 xorb (map rnd' (seq n (length b0))) bits = map2 xorb (map rnd (seq n (length b0))) b0).
      { intro L. apply corr_same; [congruence|]. intros m Hm. specialize (Rb m). rewrite TK, L in Rb. specialize (Rb Hm).
        unfold buffered_inputs in Rb. cbn [flat_map] in Rb. rewrite <- Lb, L, !app_nil_r in Rb. exact Rb. }
      destruct Hb as (fe & fg & lg & E0 & E1 & E2 & E3 & E4 & E5). destruct Hb' as (fe' & fg' & lg' & E0' & E1' & E2' & E3' & E4' & E5').
      set (m := if (bs <? length b0)%nat then [] else [MBits (if (bs <? length b0)%nat then repeat false (length b0) else map2 xorb (map rnd (seq n (if (bs <? length b0)%nat then 0%nat else length b0))) b0)]) in *.
      assert (Em : (if (bs <? length b0)%nat then [] else [MBits (if (bs <? length b0)%nat then repeat false (length b0) else map2 xorb (map rnd' (seq n (if (bs <? length b0)%nat then 0%nat else length b0))) bits)]) = m).
      { unfold m. destruct (bs <? length b0)%nat; [reflexivity|]. now rewrite CS. }
      rewrite Em in E1', E2'.
      assert (X : lg' = lg /\ fg' = fg).
      { specialize (E2 []). specialize (E2' []). rewrite GF in E2'. unfold gen_feed in E2, E2'. rewrite <- Lb in E2'. rewrite E2 in E2'. injection E2' as <- <-. auto. }
      destruct X as [-> ->].
      cbn [o_step] in St, St'. rewrite E1, C2 in St. rewrite E1', C2' in St'. cbn [bind] in St, St'. cbn [app] in St, St'.
      specialize (E2 []). specialize (E2' []). rewrite app_nil_r in E2, E2'. rewrite E2 in St. rewrite E2' in St'. cbn [bind] in St, St'.
      injection St as <- _. injection St' as <- _. cbn [og_w og_f og_gid oe_f]. rewrite EG, GI. split; [|split; [reflexivity|]].
      * repeat (split; [reflexivity|]). exists p1. rewrite TK. auto.
      * cbn [o_msgs_eva]. rewrite E1, E1'. reflexivity.
    + discriminate.
  - apply shape_other in Sh. subst c. cbn [o_step] in St, St'. rewrite EG, GI in St'.
    destruct (og_and sigma aes delta (lbl (og_w s) i) (lbl (og_w s) j) (og_gid s)) as [[o gid1] m] eqn:O1.
    destruct (oe_and sigma aes (lbl (oe_w s) i) (lbl (oe_w s) j) (oe_gid s) (o_ge s ++ m)) as [[oe ch]| |]; cbn [bind] in St; try discriminate.
    destruct (oe_and sigma aes (lbl (oe_w s') i) (lbl (oe_w s') j) (oe_gid s') (o_ge s' ++ m)) as [[oe' ch']| |]; cbn [bind] in St'; try discriminate.
    injection St as <- _. injection St' as <- _. cbn [og_w og_f og_gid]. split; [|split; [|reflexivity]].
    + repeat (split; [assumption || reflexivity|]). exact (Same s s' eq_refl eq_refl eq_refl eq_refl eq_refl).
    + cbn [o_msgs_gen o_sent]. now rewrite EG, GI.
  - apply shape_other in Sh. subst c. cbn [o_step] in St, St'. injection St as <- _. injection St' as <- _. cbn [og_w og_f og_gid].
    split; [|split; reflexivity]. rewrite EG. repeat (split; [assumption || reflexivity|]). exact (Same s s' eq_refl eq_refl eq_refl eq_refl eq_refl).
  - apply shape_other in Sh. subst c. cbn [o_step] in St, St'. injection St as <- _. injection St' as <- _. cbn [og_w og_f og_gid].
    split; [|split; reflexivity]. rewrite EG. repeat (split; [assumption || reflexivity|]). exact (Same s s' eq_refl eq_refl eq_refl eq_refl eq_refl).
  - apply shape_other in Sh. subst c. assert (RK := reveal_keeps _ _ _ _ _ _ _ _ _ _ _ _ _ St). assert (RK' := reveal_keeps _ _ _ _ _ _ _ _ _ _ _ _ _ St').
    destruct RK as (R1 & R2 & R3 & R4 & R5). destruct RK' as (R1' & R2' & R3' & R4' & R5').
    assert (MG : o_msgs_gen sigma aes delta s' (IReveal pt ws) = o_msgs_gen sigma aes delta s (IReveal pt ws)) by (destruct pt; cbn [o_msgs_gen]; rewrite ?EG; reflexivity).
    split; [|split; [exact MG|]].
    + rewrite R1, R1', R5, R5', R4', GF. repeat (split; [congruence|]). rewrite <- GF, <- R4'. now apply Same.
    + cbn [wf_instr] in Wf. destruct pt; [|reflexivity|]; cbn in Told; injection Told as Told; unfold o_msgs_eva;
        rewrite ?MG, ?C1, ?C1', (same_e bs s s' w w' k n ws T Wf Told); reflexivity.
Qed.

Lemma gtwin_run bs : forall prog prog' s s' w w' k n, gtwin bs s s' w w' k n -> map shape prog = map shape prog' ->
  inputs_of ALICE prog = inputs_of ALICE prog' -> wf (length w) prog = true ->
  clean_run sigma aes Hash fixk Kc rnd lab delta s w k prog -> clean_run sigma aes Hash fixk Kc rnd' lab delta s' w' k prog' ->
  (forall m, (m < length (buffered_inputs bs prog))%nat -> xorb (rnd' (n + m)%nat) (nth m (buffered_inputs bs prog') false) = xorb (rnd (n + m)%nat) (nth m (buffered_inputs bs prog) false)) ->
  told ALICE (snd (spec_run w prog)) = told ALICE (snd (spec_run w' prog')) ->
  exists sf op sf' op', o_run sigma aes Hash fixk Kc rnd lab delta s prog = Ok (sf, op) /\ o_run sigma aes Hash fixk Kc rnd' lab delta s' prog' = Ok (sf', op') /\
    og_w sf' = og_w sf /\ og_f sf' = og_f sf /\
    o_msgs sigma aes Hash fixk Kc rnd' lab delta s' prog' = o_msgs sigma aes Hash fixk Kc rnd lab delta s prog.
Proof.
  induction prog as [|c t IH]; intros [|c' t'] s s' w w' k n T Sh Bi Wf Cl Cl' Rb Told; try discriminate.
  - exists s, [], s', []. repeat split; apply T.
  - cbn [map] in Sh. injection Sh as Sc Sh. cbn [wf] in Wf. apply andb_prop in Wf. destruct Wf as [Wf1 Wf2]. cbn [clean_run] in Cl, Cl'. destruct Cl as [Cl1 Cl2]. destruct Cl' as [Cl1' Cl2'].
    assert (Bc : (match c with IFeed ALICE _ => c' = c | _ => True end) /\ inputs_of ALICE t = inputs_of ALICE t').
    { unfold inputs_of in *. cbn [flat_map] in Bi. destruct c as [|[] bits| | | |]; destruct c' as [|[] bits'| | | |]; cbn in Sc; try discriminate; cbn [app] in Bi; try (split; [exact I|exact Bi]).
      injection Bi as -> Bi. split; [reflexivity|exact Bi]. }
    destruct Bc as [Bc Bt].
    assert (Tl : told ALICE (spec_opened w c) = told ALICE (spec_opened w' c') /\ told ALICE (snd (spec_run (spec_step w c) t)) = told ALICE (snd (spec_run (spec_step w' c') t'))).
    { cbn [spec_run] in Told. destruct (spec_run (spec_step w c) t) as [a1 a2], (spec_run (spec_step w' c') t') as [b1 b2]. cbn [snd] in *.
      rewrite !told_app in Told. apply app_split in Told; [exact Told|]. now apply told_len. }
    destruct Tl as [Tl1 Tl2].
    assert (BS : forall x y, buffered_inputs bs (x :: y) = buffered_inputs bs [x] ++ buffered_inputs bs y) by (intros; unfold buffered_inputs; cbn [flat_map]; now rewrite app_nil_r).
    assert (TK : length (buffered_inputs bs [c']) = length (buffered_inputs bs [c])).
    { unfold buffered_inputs. cbn [flat_map]. rewrite !app_nil_r. destruct c'; try (apply shape_other in Sc; subst c; reflexivity). apply shape_feed in Sc. destruct Sc as (b0 & -> & L).
      destruct p; try reflexivity. rewrite <- L. destruct (bs <? length b0)%nat; [reflexivity|]. symmetry; exact L. }
    rewrite (BS c t), (BS c' t'), app_length in Rb.
    destruct (gtwin_step bs s s' w w' k n c c' T Sc Bc Wf1 Cl1 Cl1') as (s1 & op & s1' & op' & St & St' & T1 & M1 & M2).
    { unfold took. intros m Hm. specialize (Rb m ltac:(lia)). rewrite !app_nth1 in Rb by lia. exact Rb. }
    { exact Tl1. }
    rewrite St in Cl2. rewrite St', (kind_shape k c c' Sc) in Cl2'. rewrite <- spec_step_length in Wf2.
    destruct (IH t' s1 s1' (spec_step w c) (spec_step w' c') (kind_step k c) (n + took bs c)%nat T1 Sh Bt Wf2 Cl2 Cl2') as (sf & o2 & sf' & o2' & R & R' & G1 & G2 & M).
    { intros m Hm. specialize (Rb (took bs c + m)%nat). unfold took in *. specialize (Rb ltac:(lia)). rewrite !app_nth2 in Rb by lia. rewrite TK in Rb.
      replace (length (buffered_inputs bs [c]) + m - length (buffered_inputs bs [c]))%nat with m in Rb by lia.
      replace (n + length (buffered_inputs bs [c]) + m)%nat with (n + (length (buffered_inputs bs [c]) + m))%nat by lia. exact Rb. }
    { exact Tl2. }
    exists sf, (op ++ o2), sf', (op' ++ o2'). cbn [o_run]. rewrite St, St'. cbn [bind]. rewrite R, R'. cbn [bind].
    split; [reflexivity|]. split; [reflexivity|]. split; [exact G1|]. split; [exact G2|].
    cbn [o_msgs]. rewrite St, St', M, M1, M2. reflexivity.
Qed.
End GV.

Theorem streaming_garbler_view : forall sigma aes Hash fixk Kc rnd lab delta, getLSB delta = true -> blk delta ->
  (forall x, blk (sigma x)) -> (forall x, blk (aes x)) -> (forall i, blk (fixk i)) -> (forall i, blk (Kc i)) -> (forall i, blk (lab i)) ->
  forall bs on1 on2, map shape on1 = map shape on2 -> inputs_of ALICE on1 = inputs_of ALICE on2 -> wf 0 on1 = true ->
  told ALICE (snd (spec_run [] on1)) = told ALICE (snd (spec_run [] on2)) ->
  let rnd' m := xorb (rnd m) (xorb (nth m (buffered_inputs bs on1) false) (nth m (buffered_inputs bs on2) false)) in
  let s0 := o_init Kc rnd delta bs in let s0' := o_init Kc rnd' delta bs in
  clean_run sigma aes Hash fixk Kc rnd lab delta s0 [] [] on1 -> clean_run sigma aes Hash fixk Kc rnd' lab delta s0' [] [] on2 ->
  exists s op s' op', o_run sigma aes Hash fixk Kc rnd lab delta s0 on1 = Ok (s, op) /\ o_run sigma aes Hash fixk Kc rnd' lab delta s0' on2 = Ok (s', op') /\
    og_w s' = og_w s /\ og_f s' = og_f s /\
    o_msgs sigma aes Hash fixk Kc rnd' lab delta s0' on2 = o_msgs sigma aes Hash fixk Kc rnd lab delta s0 on1.
Proof.
  intros sigma aes Hash fixk Kc rnd lab delta Hd Bd Bs Ba Bf Bk Bl bs on1 on2 Sh Ai Wf Told rnd' s0 s0' Cl Cl'.
  apply (gtwin_run sigma aes Hash fixk Kc rnd rnd' lab delta Hd Bd Bs Ba Bf Bk Bl bs on1 on2 s0 s0' [] [] [] 0); try assumption.
  - assert (I : forall r, oinv Kc r delta bs (o_init Kc r delta bs) [] []).
    { intro r. exists [], (pos_init bs). split; [constructor|]. repeat (split; [reflexivity|]). apply finv_init. }
    split; [apply I|]. split; [apply I|]. repeat (split; [reflexivity|]). exists (pos_init bs). split; [apply finv_init|]. split; [apply finv_init|]. cbn. lia.
  - intros m Hm. unfold rnd'. cbn [plus]. destruct (rnd m), (nth m (buffered_inputs bs on1) false), (nth m (buffered_inputs bs on2) false); reflexivity.
Qed.
