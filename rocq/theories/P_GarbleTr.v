(** The tables sent are half gates, each with its own two hash numbers. *)
From Coq Require Import List NArith Bool Arith Lia.
From Verif Require Import L_Bits L_Res L_Xor S_Circuit S_HalfGate M_Garble M_GarbleTr.
Import ListNotations.
Local Open Scope N_scope.

Section T.
Variable sigma aes : N -> N.
Variable Hash : list N -> N.
Variable fixk : nat -> N.
Variable Kc : nat -> N.
Variable rnd : nat -> bool.
Variable lab : nat -> N.
Variable delta : N.
Notation H := (label_hash sigma aes).

Lemma tweak_eq j : j < 2 ^ 64 -> makeBlock j 0 = j * 2 ^ 64.
Proof. intro L. unfold makeBlock. rewrite N.mod_0_l by discriminate. now rewrite N.lor_0_r, N.mod_small, N.shiftl_mul_pow2. Qed.
Lemma hash_eq x j : j < 2 ^ 64 -> hg_hash sigma aes x (makeBlock j 0) = H x j.
Proof. intro L. unfold hg_hash, label_hash. now rewrite tweak_eq. Qed.
Lemma lsb_odd x : getLSB x = N.odd x.
Proof. apply N.bit0_odd. Qed.
Lemma gate_is_half_gate a b g : g < 2 ^ 63 ->
  garble_gate sigma aes a (N.lxor a delta) b (N.lxor b delta) delta g =
  (gate_out H delta a b (2 * g), garbler_half H delta a b (2 * g), evaluator_half H delta a b (2 * g)).
Proof.
  intro L. assert (P : 2 ^ 64 = 2 * 2 ^ 63) by reflexivity.
  unfold garble_gate, gate_out, garbler_half, evaluator_half. rewrite !hash_eq by lia. rewrite !lsb_odd. unfold sel.
  assert (E : forall x, N.lxor (N.lxor x a) a = x) by (intro x; now rewrite N.lxor_assoc, N.lxor_nilpotent, N.lxor_0_r).
  rewrite E, N.lxor_assoc. reflexivity.
Qed.

Lemma tables_app l m : tables (l ++ m) = tables l ++ tables m.
Proof. unfold tables. apply flat_map_app. Qed.
Lemma tables_bits {A} (f : A -> bool) l : tables (map (fun i => MBit (f i)) l) = [].
Proof. induction l; [reflexivity|exact IHl]. Qed.

Theorem offline_tables : forall prog g, fg_gid g + N.of_nat (length prog) <= 2 ^ 63 ->
  length (tables (f_sent sigma aes fixk lab delta g prog)) = ands prog /\
  forall k t, nth_error (tables (f_sent sigma aes fixk lab delta g prog)) k = Some t ->
  exists a b, t = (garbler_half H delta a b (2 * (fg_gid g + N.of_nat k)), evaluator_half H delta a b (2 * (fg_gid g + N.of_nat k))).
Proof.
  induction prog as [|c t IH]; intros g L.
  - split; [reflexivity|]. intros [|k] ? E; discriminate E.
  - cbn [length] in L. cbn [f_sent].
    assert (Skip : forall g' m, fg_step sigma aes fixk lab delta g c = (g', m) -> tables m = [] -> fg_gid g' = fg_gid g ->
      ands (c :: t) = ands t ->
      length (tables (let (g, m) := fg_step sigma aes fixk lab delta g c in m ++ f_sent sigma aes fixk lab delta g t)) = ands (c :: t) /\
      forall k t0, nth_error (tables (let (g, m) := fg_step sigma aes fixk lab delta g c in m ++ f_sent sigma aes fixk lab delta g t)) k = Some t0 ->
      exists a b, t0 = (garbler_half H delta a b (2 * (fg_gid g + N.of_nat k)), evaluator_half H delta a b (2 * (fg_gid g + N.of_nat k)))).
    { intros g' m E T G A. rewrite E, tables_app, T, A, <- G. cbn [app]. apply IH. rewrite G. lia. }
    destruct c as [b|p bits|i j|i j|i|p ws].
    1,2,4,5: now eapply Skip.
    2: { eapply Skip; try reflexivity. destruct p; [reflexivity|reflexivity|apply tables_bits]. }
    clear Skip. cbn [fg_step]. rewrite gate_is_half_gate by lia. cbv beta iota zeta.
    rewrite tables_app. cbn [tables flat_map as_table app].
    match goal with |- context [f_sent _ _ _ _ _ ?x t] => set (g' := x) end.
    destruct (IH g') as [L1 L2]; [unfold g'; cbn [fg_gid]; lia|]. split; [cbn [length]; unfold ands in *; cbn [filter length]; now rewrite L1|].
    intros [|k] t0 E.
    + cbn [nth_error] in E. injection E as <-. eexists _, _. rewrite N.add_0_r. reflexivity.
    + cbn [nth_error] in E. destruct (L2 k t0 E) as (a & b & ->). exists a, b. unfold g'. cbn [fg_gid].
      replace (fg_gid g + 1 + N.of_nat k) with (fg_gid g + N.of_nat (S k)) by lia. reflexivity.
Qed.
Lemma out_grows : forall t g1 e1 ch1 g' e' ch', f_run sigma aes fixk lab delta g1 e1 ch1 t = Ok (g', e', ch') ->
  exists l1, fg_out g' = fg_out g1 ++ l1.
Proof.
  induction t as [|c t IH]; intros g1 e1 ch1 g' e' ch' R.
  - cbn in R. injection R as <- _ _. exists []. now rewrite app_nil_r.
  - cbn [f_run] in R. destruct (fg_step sigma aes fixk lab delta g1 c) as [g2 m] eqn:E.
    destruct (fe_step e1 c (ch1 ++ m)) as [[e2 ch2]| |]; cbn [bind] in R; try discriminate.
    destruct (IH _ _ _ _ _ _ R) as [l1 ->].
    assert (Q : exists l2, fg_out g2 = fg_out g1 ++ l2).
    { destruct c; cbn [fg_step] in E;
        repeat match type of E with context [let '(_, _) := ?x in _] => destruct x as [[? ?] ?] end;
        apply (f_equal fst) in E; cbn [fst] in E; subst g2; cbn [fg_out];
        first [eexists; reflexivity | exists []; now rewrite app_nil_r]. }
    destruct Q as [l2 ->]. exists (l2 ++ l1). now rewrite app_assoc.
Qed.
(** labels of the gate outputs, kept for the online phase *)
Theorem offline_labels : forall prog g l, fg_gid g + N.of_nat (length prog) <= 2 ^ 63 ->
  forall e ch g' e' ch', f_run sigma aes fixk lab delta g e ch prog = Ok (g', e', ch') ->
  fg_out g' = fg_out g ++ l -> 
  length l = ands prog /\
  forall k, (k < length l)%nat -> exists a b, nth k l 0 = gate_out H delta a b (2 * (fg_gid g + N.of_nat k)) /\
    nth_error (tables (f_sent sigma aes fixk lab delta g prog)) k
      = Some (garbler_half H delta a b (2 * (fg_gid g + N.of_nat k)), evaluator_half H delta a b (2 * (fg_gid g + N.of_nat k))).
Proof.
  induction prog as [|c t IH]; intros g l L e ch g' e' ch' R O.
  - cbn in R. injection R as <- _ _. assert (l = []) by (apply (app_inv_head (fg_out g)); now rewrite app_nil_r). subst l.
    split; [reflexivity|]. intros k Hk. cbn in Hk. lia.
  - cbn [length] in L. cbn [f_run] in R. cbn [f_sent].
    assert (Skip : forall g1 m, fg_step sigma aes fixk lab delta g c = (g1, m) -> tables m = [] -> fg_gid g1 = fg_gid g -> fg_out g1 = fg_out g ->
      ands (c :: t) = ands t ->
      length l = ands (c :: t) /\
      forall k, (k < length l)%nat -> exists a b, nth k l 0 = gate_out H delta a b (2 * (fg_gid g + N.of_nat k)) /\
        nth_error (tables (let (g, m) := fg_step sigma aes fixk lab delta g c in m ++ f_sent sigma aes fixk lab delta g t)) k
          = Some (garbler_half H delta a b (2 * (fg_gid g + N.of_nat k)), evaluator_half H delta a b (2 * (fg_gid g + N.of_nat k)))).
    { intros g1 m E T G Og A. rewrite E, tables_app, T, A, <- G. cbn [app]. rewrite E in R.
      destruct (fe_step e c (ch ++ m)) as [[e1 ch1]| |]; cbn [bind] in R; try discriminate.
      apply (IH g1 l) with (3 := eq_trans O (f_equal (fun x => x ++ l) (eq_sym Og))) (2 := R). rewrite G. lia. }
    destruct c as [b|p bits|i j|i j|i|p ws].
    1,2,4,5: now eapply Skip.
    2: { eapply Skip; try reflexivity. destruct p; [reflexivity|reflexivity|apply tables_bits]. }
    clear Skip. cbn [fg_step] in *. rewrite gate_is_half_gate in * by lia. cbv beta iota zeta in *.
    rewrite tables_app. cbn [tables flat_map as_table app].
    match goal with |- context [f_sent _ _ _ _ _ ?x t] => set (g1 := x) in * end.
    match type of R with (bind ?m _) = _ => destruct m as [[e1 ch1]| |]; cbn [bind] in R; try discriminate end.
    set (o := gate_out H delta (lbl (fg_w g) i) (lbl (fg_w g) j) (2 * fg_gid g)) in *.
    assert (El : exists l1, l = o :: l1 /\ fg_out g' = fg_out g1 ++ l1).
    { assert (P : exists l1, fg_out g' = fg_out g1 ++ l1).
      { exact (out_grows _ _ _ _ _ _ _ R). }
      destruct P as [l1 P]. exists l1. split; [|exact P]. rewrite P in O. unfold g1 in O. cbn [fg_out] in O.
      rewrite <- app_assoc in O. symmetry. apply (app_inv_head _ _ _ O). }
    destruct El as (l1 & -> & O1).
    destruct (IH g1 l1) with (3 := O1) (2 := R) as [L1 L2]; [unfold g1; cbn [fg_gid]; lia|].
    split; [cbn [length]; unfold ands in *; cbn [filter length]; now rewrite L1|].
    intros [|k] Hk.
    + exists (lbl (fg_w g) i), (lbl (fg_w g) j). cbn [nth nth_error]. rewrite N.add_0_r. split; reflexivity.
    + cbn [length] in Hk. destruct (L2 k) as (a & b & E1 & E2); [lia|]. exists a, b. cbn [nth nth_error].
      replace (fg_gid g + N.of_nat (S k)) with (fg_gid g1 + N.of_nat k) by (unfold g1; cbn [fg_gid]; lia).
      split; assumption.
Qed.

Lemma and_sent a b g : g < 2 ^ 63 ->
  (snd (og_and sigma aes delta a b g) = [] /\ snd (fst (og_and sigma aes delta a b g)) = g) \/
  (snd (og_and sigma aes delta a b g) = [MTable (garbler_half H delta a b (2 * g)) (evaluator_half H delta a b (2 * g))] /\
   snd (fst (og_and sigma aes delta a b g)) = g + 1).
Proof.
  intro L. unfold og_and. destruct (_ || _); [now left|]. destruct (isOne a); [now left|]. destruct (isOne b); [now left|].
  rewrite gate_is_half_gate by exact L. now right.
Qed.
Lemma step_gid s c s' o : o_step sigma aes Hash fixk Kc rnd lab delta s c = Ok (s', o) ->
  og_gid s' = match c with IAnd i j => snd (fst (og_and sigma aes delta (lbl (og_w s) i) (lbl (og_w s) j) (og_gid s))) | _ => og_gid s end.
Proof.
  destruct c as [b|p bits|i j|i j|i|p ws]; cbn [o_step]; intro E.
  1,4,5: now injection E as <- _.
  - destruct (eva_feed Kc rnd lab delta p bits (oe_f s)) as [[[le fe] m]| |]; cbn [bind] in E; try discriminate.
    destruct (gen_feed Kc lab delta p bits (og_f s) (o_eg s ++ m)) as [[[lg fg] ch]| |]; cbn [bind] in E; try discriminate.
    now injection E as <- _.
  - destruct (og_and _ _ _ _ _ _) as [[o1 g1] m]. destruct (oe_and _ _ _ _ _ _) as [[oe ch]| |]; cbn [bind] in E; try discriminate.
    now injection E as <- _.
  - destruct p.
    + destruct (oe_reveal_send _) as [be m]. destruct (og_reveal_recv _ _) as [[bg ch]| |]; cbn [bind] in E; try discriminate. now injection E as <- _.
    + destruct (og_reveal_send _) as [be m]. destruct (oe_reveal_recv _ _) as [[bg ch]| |]; cbn [bind] in E; try discriminate. now injection E as <- _.
    + destruct (og_reveal_send _) as [be m]. destruct (oe_reveal_recv _ _) as [[bg ch]| |]; cbn [bind] in E; try discriminate.
      destruct (recv as_bits _) as [[bb ch']| |]; cbn [bind] in E; try discriminate.
      destruct (recv as_hash _) as [[hh ch'']| |]; cbn [bind] in E; try discriminate.
      destruct (og_reveal_check _ _ _ _ _) as [?| |]; cbn [bind] in E; try discriminate. now injection E as <- _.
Qed.
Theorem streaming_tables : forall prog s, og_gid s + N.of_nat (length prog) <= 2 ^ 63 ->
  forall k m, nth_error (o_tables sigma aes Hash fixk Kc rnd lab delta s prog) k = Some m ->
  exists a b, m = MTable (garbler_half H delta a b (2 * (og_gid s + N.of_nat k))) (evaluator_half H delta a b (2 * (og_gid s + N.of_nat k))).
Proof.
  induction prog as [|c t IH]; intros s L k m; [destruct k; discriminate|].
  cbn [length] in L. cbn [o_tables].
  destruct (o_step sigma aes Hash fixk Kc rnd lab delta s c) as [[s' o]| |] eqn:E.
  - pose proof (step_gid _ _ _ _ E) as G.
    assert (Q : (o_sent sigma aes delta s c = [] /\ og_gid s' = og_gid s) \/
      (exists a b, o_sent sigma aes delta s c = [MTable (garbler_half H delta a b (2 * og_gid s)) (evaluator_half H delta a b (2 * og_gid s))] /\ og_gid s' = og_gid s + 1)).
    { destruct c; try (left; split; [reflexivity|exact G]).
      cbn [o_sent]. rewrite G. destruct (and_sent (lbl (og_w s) i) (lbl (og_w s) j) (og_gid s)) as [[A B]|[A B]]; [lia|left; now split|].
      right. eexists _, _. split; [exact A|exact B]. }
    destruct Q as [[-> G']|(a & b & -> & G')]; cbn [app]; intro K.
    + rewrite <- G'. apply IH; [lia|exact K].
    + destruct k as [|k]; cbn [nth_error] in K.
      * injection K as <-. exists a, b. rewrite N.add_0_r. reflexivity.
      * replace (og_gid s + N.of_nat (S k)) with (og_gid s' + N.of_nat k) by lia. apply IH; [lia|exact K].
  - rewrite app_nil_r. destruct c; cbn [o_sent]; try (destruct k; discriminate).
    destruct (and_sent (lbl (og_w s) i) (lbl (og_w s) j) (og_gid s)) as [[-> _]|[-> _]]; [lia|destruct k; discriminate|].
    destruct k as [|[|k]]; intro K; try discriminate K. injection K as <-. eexists _, _. rewrite N.add_0_r. reflexivity.
  - rewrite app_nil_r. destruct c; cbn [o_sent]; try (destruct k; discriminate).
    destruct (and_sent (lbl (og_w s) i) (lbl (og_w s) j) (og_gid s)) as [[-> _]|[-> _]]; [lia|destruct k; discriminate|].
    destruct k as [|[|k]]; intro K; try discriminate K. injection K as <-. eexists _, _. rewrite N.add_0_r. reflexivity.
Qed.
End T.
