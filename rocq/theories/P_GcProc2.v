(** Circuits on the streaming backend as two programs: how a run of any prefix leaves the two parties, and
    that neither party waits with anything of its own on the other channel, whatever it receives. *)
From Coq Require Import List NArith Bool Arith Lia.
From Verif Require Import L_Bits L_Res S_Circuit S_Sched M_Utils M_Block M_Garble M_Exch M_LabRec M_GcProc.
From Verif Require Import P_Garble P_GarbleFeed P_Utils P_Sched P_Exch P_ExchAead P_GcProc.
From Verif Require P_GarbleOpt.
Import ListNotations.
Local Open Scope N_scope.
Local Opaque bytes_of_block block_of_bytes dig_bytes.

Lemma wp_sends {A} (k : proc A) Q : forall ms d, snd d = false -> (forall b, (ms = [] -> b = fst d) -> wp k (b, false) Q) -> wp (p_sends ms k) d Q.
Proof.
  induction ms as [|m ms IH]; intros [d1 d2] D H; cbn [snd] in D; subst d2; cbn [p_sends].
  - apply H. reflexivity.
  - cbn [wp]. unfold fset. cbn [fst snd]. apply IH; [reflexivity|]. intros b _. apply H. discriminate.
Qed.
Lemma wp_reveal (Q : list bool -> flags -> Prop) : forall l d, snd d = false ->
  (forall b d', length b = length l -> snd d' = false -> Q b d') -> wp (p_reveal l) d Q.
Proof.
  intros l. revert Q. induction l as [|x l IH]; intros Q d D H; cbn [p_reveal].
  - apply H; auto.
  - destruct (isOne x); [|destruct (isZero x)].
    1,2: apply wp_bind, IH; [exact D|]; intros b d' L D'; cbn [wp]; apply H; cbn; auto.
    cbn [wp fget other]. split; [exact D|]. intros bs _. apply wp_bind, IH; [exact D|]. intros b d' L D'. cbn [wp]. apply H; cbn; auto.
Qed.
Lemma wp_bits (Q : list bool -> flags -> Prop) : forall n d, snd d = false -> (forall b d', length b = n -> snd d' = false -> Q b d') -> wp (p_bits n) d Q.
Proof.
  intro n. revert Q. induction n as [|n IH]; intros Q d D H; cbn [p_bits].
  - apply H; auto.
  - cbn [wp fget other]. split; [exact D|]. intros bs _. apply wp_bind, IH; [exact D|]. intros b d' L D'. cbn [wp]. apply H; cbn; auto.
Qed.
(** how many openings and how long the last *)
Definition reveals (prog : list instr) : list nat :=
  flat_map (fun c => match c with IReveal _ ws => [length ws] | _ => [] end) prog.
Lemma wf_app : forall a b n, wf n (a ++ b) = true -> wf n a = true /\ wf (n + fold_right (fun c m => new_wires c + m) 0 a)%nat b = true.
Proof.
  induction a as [|c a IH]; intros b n H; cbn [app wf fold_right] in *; [rewrite Nat.add_0_r; auto|].
  apply andb_prop in H as [H1 H2]. apply IH in H2 as [H2 H3]. rewrite H1, H2. split; [reflexivity|].
  now rewrite Nat.add_assoc.
Qed.
Lemma spec_run_app : forall a b w, spec_run w (a ++ b) =
  (fst (spec_run (fst (spec_run w a)) b), snd (spec_run w a) ++ snd (spec_run (fst (spec_run w a)) b)).
Proof.
  induction a as [|c a IH]; intros b w; cbn [app spec_run fst snd]; [now destruct (spec_run w b)|].
  rewrite IH. destruct (spec_run (spec_step w c) a) as [x y]. cbn [fst snd]. now rewrite app_assoc.
Qed.
Lemma spec_run_len : forall a w, length (fst (spec_run w a)) = (length w + fold_right (fun c m => new_wires c + m) 0 a)%nat.
Proof.
  induction a as [|c a IH]; intro w; cbn [spec_run fold_right fst]; [lia|].
  specialize (IH (spec_step w c)). destruct (spec_run (spec_step w c) a). cbn [fst] in *. rewrite IH, spec_step_length. lia.
Qed.

Section GC.
Variables (sigma aes : N -> N) (Hash : list N -> N) (fixk Kc : nat -> N) (rnd : nat -> bool) (lab : nat -> N) (delta : N).
Hypothesis Hd : getLSB delta = true.
Hypothesis Bd : delta < 2 ^ 128.
Hypothesis Bs : forall x, sigma x < 2 ^ 128.
Hypothesis Ba : forall x, aes x < 2 ^ 128.
Hypothesis Bf : forall i, fixk i < 2 ^ 128.
Hypothesis Bk : forall i, Kc i < 2 ^ 128.
Hypothesis Bl : forall i, lab i < 2 ^ 128.
Notation o_step := (o_step sigma aes Hash fixk Kc rnd lab delta).
Notation o_run := (o_run sigma aes Hash fixk Kc rnd lab delta).
Notation p_gen_step := (p_gen_step sigma aes Hash fixk Kc lab delta).
Notation p_eva_step := (p_eva_step sigma aes Hash fixk Kc rnd lab delta).
Notation p_gen := (p_gen sigma aes Hash fixk Kc lab delta).
Notation p_eva := (p_eva sigma aes Hash fixk Kc rnd lab delta).
Notation oinv := (P_GarbleOpt.oinv Kc rnd delta).
Notation clean_step := (P_GarbleOpt.clean_step sigma aes Hash fixk Kc rnd lab delta).
Notation clean_run := (P_GarbleOpt.clean_run sigma aes Hash fixk Kc rnd lab delta).

Lemma o_run_app : forall a b s, o_run s (a ++ b) =
  match o_run s a with
  | Ok (s1, o1) => match o_run s1 b with Ok (s2, o2) => Ok (s2, o1 ++ o2) | Err => Err | UB => UB end
  | Err => Err | UB => UB end.
Proof.
  induction a as [|c a IH]; intros b s; cbn [app M_Garble.o_run].
  - destruct (o_run s b) as [[s2 o2]| |]; reflexivity.
  - destruct (o_step s c) as [[s1 o1]| |]; cbn [bind]; [|reflexivity..]. rewrite IH.
    destruct (o_run s1 a) as [[s2 o2]| |]; cbn [bind]; [|reflexivity..].
    destruct (o_run s2 b) as [[s3 o3]| |]; cbn [bind]; [|reflexivity..]. now rewrite app_assoc.
Qed.
Lemma clean_app : forall a b s w k, clean_run s w k (a ++ b) ->
  clean_run s w k a /\ forall s1 o1, o_run s a = Ok (s1, o1) -> clean_run s1 (fst (spec_run w a)) (fold_left kind_step a k) b.
Proof.
  induction a as [|c a IH]; intros b s w k H; cbn [app P_GarbleOpt.clean_run] in *.
  - split; [exact I|]. intros s1 o1 E. injection E as <- <-. exact H.
  - destruct H as [H1 H2]. cbn [M_Garble.o_run spec_run fold_left].
    destruct (o_step s c) as [[s1 o1]| |]; cbn [bind]; [|split; [split; auto|discriminate]..].
    destruct (IH _ _ _ _ H2) as [I1 I2]. split; [split; assumption|].
    intros s2 o2 E. destruct (o_run s1 a) as [[s3 o3]| |] eqn:R; cbn [bind] in E; try discriminate. injection E as <- <-.
    specialize (I2 s3 o3 eq_refl). destruct (spec_run (spec_step w c) a). exact I2.
Qed.

Lemma rel_blk Q : Forall (P_GarbleOpt.rel delta) Q -> Forall (fun x => x < 2 ^ 128) (map P_GarbleOpt.qg Q).
Proof.
  intro F. apply Forall_map. eapply Forall_impl; [|exact F]. intros [[[v k] g] e] R. unfold P_GarbleOpt.rel in R. cbn in *.
  destruct k as [b|]; [|tauto]. destruct R as (_ & -> & _). destruct b; reflexivity.
Qed.
(** a run of part of a circuit, seen from the two parties *)
Lemma stream_conv bs : forall prog s w k va vb, oinv bs s w k -> wf (length w) prog = true -> clean_run s w k prog ->
  exists s' op, o_run s prog = Ok (s', op) /\ oinv bs s' (fst (spec_run w prog)) (fold_left kind_step prog k) /\
    Forall2 seen (snd (spec_run w prog)) op /\
    conv (p_gen (gof s va) prog) (p_eva (eof s vb) prog) (Ok (gof s' (va ++ saw true op))) (Ok (eof s' (vb ++ saw false op))).
Proof.
  induction prog as [|c t IH]; intros s w k va vb Hi Hwf Hc.
  - exists s, []. cbn. rewrite !app_nil_r. repeat split; try assumption; [constructor|apply conv_ret].
  - cbn [wf] in Hwf. apply andb_prop in Hwf. destruct Hwf as [W1 W2]. destruct Hc as [Hc1 Hc2].
    destruct (P_GarbleOpt.opt_step sigma aes Hash fixk Kc rnd lab delta Hd Bd Bs Ba Bf Bk Bl bs s w k c Hi W1 Hc1) as (s1 & op1 & E1 & E2 & E3 & _).
    rewrite E1 in Hc2. rewrite <- spec_step_length in W2.
    destruct (IH s1 _ _ (va ++ saw true op1) (vb ++ saw false op1) E3 W2 Hc2) as (s2 & op2 & F1 & F2 & F3 & F4).
    exists s2, (op1 ++ op2). cbn [M_Garble.o_run]. rewrite E1. cbn [bind]. rewrite F1. cbn [bind spec_run fold_left].
    destruct (spec_run (spec_step w c) t) as [w' ov]. cbn [fst snd] in *.
    split; [reflexivity|]. split; [exact F2|]. split; [apply Forall2_app; assumption|].
    cbn [M_GcProc.p_gen M_GcProc.p_eva]. unfold saw in *. rewrite !map_app, !app_assoc. eapply conv_rbind; [|exact F4].
    destruct Hi as (Q & p & FQ & _ & _ & Eg & _ & _ & G1 & G2 & _).
    destruct E3 as (Q' & p' & _ & _ & _ & _ & _ & _ & G3 & G4 & _).
    apply (o_step_conv sigma aes Hash fixk Kc rnd lab delta Bd Bs Ba); try assumption. rewrite Eg. apply rel_blk, FQ.
Qed.

(** * Discipline *)
Lemma wp_gen_step s c s' op g d : o_step s c = Ok (s', op) -> gs_f g = og_f s -> snd d = false ->
  wp (p_gen_step g c) d (fun r d' => snd d' = false /\
    match r with
    | Ok g' => gs_f g' = og_f s' /\ exists v, gs_saw g' = gs_saw g ++ v /\ map (@length bool) v = reveals [c]
    | Err => fst d' = false | UB => False end).
Proof.
  intros E F D. destruct c as [b|p bits|i j|i j|i|p ws]; cbn [M_Garble.o_step M_GcProc.p_gen_step reveals flat_map app] in *.
  - injection E as <- <-. cbn. split; [exact D|]. split; [exact F|]. exists []. now rewrite app_nil_r.
  - destruct (eva_feed Kc rnd lab delta p bits (oe_f s)) as [[[le fe] m]| |] eqn:EE; cbn [bind] in E; try discriminate.
    destruct (gen_feed Kc lab delta p bits (og_f s) (o_eg s ++ m)) as [[[lg fg] ch]| |] eqn:EG; cbn [bind] in E; try discriminate.
    injection E as <- <-. cbn [og_f] in *. rewrite F.
    assert (NIL : forall x : list (list bool), exists v, x = x ++ v /\ map (@length bool) v = []) by (intro x; exists []; now rewrite app_nil_r).
    destruct p.
    + cbn [gen_feed] in EG |- *. injection EG as <- <- <-. cbn. auto.
    + cbn [gen_feed] in EG. unfold local. apply wp_rbind. cbn [wp].
      destruct (gen_take Kc (length bits) (og_f s)) as [[[a corr] fg1]| |]; cbn [bind] in EG; try discriminate.
      destruct corr.
      * destruct (recv as_bits (o_eg s ++ m)) as [[? ?]| |]; cbn [bind] in EG; try discriminate. injection EG as <- <- <-.
        cbn [wp fget other fset]. split; [exact D|]. intros. cbn. auto.
      * injection EG as <- <- <-. cbn. auto.
    + cbn [gen_feed] in EG. unfold local. apply wp_rbind. cbn [wp].
      destruct (gen_take Kc (length bits) (og_f s)) as [[[a corr] fg1]| |]; cbn [bind] in EG; try discriminate.
      destruct corr.
      * destruct (recv as_bits (o_eg s ++ m)) as [[? ?]| |]; cbn [bind] in EG; try discriminate. injection EG as <- <- <-.
        cbn [wp fget other fset]. split; [exact D|]. intros. cbn. auto.
      * injection EG as <- <- <-. cbn. auto.
  - destruct (og_and sigma aes delta (lbl (og_w s) i) (lbl (og_w s) j) (og_gid s)) as [[o gid] m].
    destruct (oe_and sigma aes (lbl (oe_w s) i) (lbl (oe_w s) j) (oe_gid s) (o_ge s ++ m)) as [[[? ?] ?]| |]; cbn [bind] in E; try discriminate.
    injection E as <- <-. cbn [og_f].
    destruct (og_and sigma aes delta (lbl (gs_w g) i) (lbl (gs_w g) j) (gs_gid g)) as [[o' gid'] m'].
    apply wp_sends; [exact D|]. intros b _. cbn. split; [reflexivity|]. split; [exact F|]. exists []. now rewrite app_nil_r.
  - injection E as <- <-. cbn. split; [exact D|]. split; [exact F|]. exists []. now rewrite app_nil_r.
  - injection E as <- <-. cbn. split; [exact D|]. split; [exact F|]. exists []. now rewrite app_nil_r.
  - assert (F' : gs_f g = og_f s').
    { rewrite F. destruct p.
      - destruct (oe_reveal_send _) as [be m]. destruct (og_reveal_recv _ _) as [[? ?]| |]; cbn [bind] in E; try discriminate. now injection E as <- <-.
      - destruct (og_reveal_send _) as [be m]. destruct (oe_reveal_recv _ _) as [[? ?]| |]; cbn [bind] in E; try discriminate. now injection E as <- <-.
      - destruct (og_reveal_send _) as [be m]. destruct (oe_reveal_recv _ _) as [[? ?]| |]; cbn [bind] in E; try discriminate.
        destruct (recv as_bits _) as [[? ?]| |]; cbn [bind] in E; try discriminate.
        destruct (recv as_hash _) as [[? ?]| |]; cbn [bind] in E; try discriminate.
        destruct (og_reveal_check _ _ _ _ _); cbn [bind] in E; try discriminate. now injection E as <- <-. }
    assert (SE : forall (b : list bool) (d' : flags), length b = length ws -> snd d' = false ->
      snd d' = false /\ gs_f g = og_f s' /\ exists v, gs_saw g ++ [b] = gs_saw g ++ v /\ map (@length bool) v = [length ws]).
    { intros b d' L D'. split; [exact D'|]. split; [exact F'|]. exists [b]. cbn. now rewrite L. }
    destruct p.
    + apply wp_bind, wp_reveal; [exact D|]. intros b d' L D'. rewrite map_length in L. cbn [wp gs_f gs_saw]. apply SE; assumption.
    + destruct (og_reveal_send (map (lbl (gs_w g)) ws)) as [b m] eqn:R. apply wp_sends; [exact D|]. intros x _. cbn [wp gs_f gs_saw].
      apply SE; [|reflexivity]. 
      enough (X : length (fst (og_reveal_send (map (lbl (gs_w g)) ws))) = length ws) by (rewrite R in X; exact X).
      clear. induction ws as [|w ws IH]; [reflexivity|]. cbn [map og_reveal_send]. destruct (og_reveal_send (map (lbl (gs_w g)) ws)).
      cbn [fst] in *. destruct (isOne _); [|destruct (isZero _)]; cbn; now rewrite IH.
    + apply wp_sends; [exact D|]. intros x _. cbn [wp fget other fset fst snd]. split; [reflexivity|]. intros y L.
      split; [reflexivity|]. intros h _. cbv zeta. destruct (same_bytes _ _); cbn [wp gs_f gs_saw]; [|auto].
      apply SE; [now rewrite map_length|reflexivity].
Qed.
Lemma wp_gen : forall prog s s' op g d, o_run s prog = Ok (s', op) -> gs_f g = og_f s -> snd d = false ->
  wp (p_gen g prog) d (fun r d' => snd d' = false /\
    match r with
    | Ok g' => gs_f g' = og_f s' /\ exists v, gs_saw g' = gs_saw g ++ v /\ map (@length bool) v = reveals prog
    | Err => fst d' = false | UB => False end).
Proof.
  induction prog as [|c t IH]; intros s s' op g d E F D; cbn [M_Garble.o_run M_GcProc.p_gen] in *.
  - injection E as <- <-. cbn. split; [exact D|]. split; [exact F|]. exists []. now rewrite app_nil_r.
  - destruct (o_step s c) as [[s1 o1]| |] eqn:E1; cbn [bind] in E; try discriminate.
    destruct (o_run s1 t) as [[s2 o2]| |] eqn:E2; cbn [bind] in E; try discriminate. injection E as <- <-.
    apply wp_rbind. eapply wp_mono; [|eapply wp_gen_step; eassumption]. intros [g1| |] d1 [D1 H]; [|cbn; auto..].
    destruct H as (F1 & v & S1 & L1). eapply wp_mono; [|eapply IH; eassumption].
    intros [g2| |] d2 [D2 H]; (split; [exact D2|]); [|exact H..]. destruct H as (F2 & v2 & S2 & L2).
    split; [exact F2|]. exists (v ++ v2). rewrite S2, S1, map_app, L1, L2, app_assoc.
    split; [reflexivity|]. unfold reveals. cbn [flat_map]. now rewrite app_nil_r.
Qed.
Lemma wp_eva_step s c s' op e d : o_step s c = Ok (s', op) -> es_f e = oe_f s -> snd d = false ->
  wp (p_eva_step e c) d (fun r d' => snd d' = false /\
    match r with
    | Ok e' => es_f e' = oe_f s' /\ exists v, es_saw e' = es_saw e ++ v /\ map (@length bool) v = reveals [c]
    | _ => False end).
Proof.
  intros E F D. destruct c as [b|p bits|i j|i j|i|p ws]; cbn [M_Garble.o_step M_GcProc.p_eva_step reveals flat_map app] in *.
  - injection E as <- <-. cbn. split; [exact D|]. split; [exact F|]. exists []. now rewrite app_nil_r.
  - destruct (eva_feed Kc rnd lab delta p bits (oe_f s)) as [[[le fe] m]| |] eqn:EE; cbn [bind] in E; try discriminate.
    destruct (gen_feed Kc lab delta p bits (og_f s) (o_eg s ++ m)) as [[[lg fg] ch]| |] eqn:EG; cbn [bind] in E; try discriminate.
    injection E as <- <-. cbn [oe_f] in *. rewrite F, EE. unfold local. apply wp_rbind. cbn [wp].
    apply wp_sends; [exact D|]. intros b _. cbn. split; [reflexivity|]. split; [reflexivity|]. exists []. now rewrite app_nil_r.
  - destruct (og_and sigma aes delta (lbl (og_w s) i) (lbl (og_w s) j) (og_gid s)) as [[o gid] m].
    destruct (oe_and sigma aes (lbl (oe_w s) i) (lbl (oe_w s) j) (oe_gid s) (o_ge s ++ m)) as [[[? ?] ?]| |]; cbn [bind] in E; try discriminate.
    injection E as <- <-. cbn [oe_f].
    destruct (isZero (lbl (es_w e) i) || isOne (lbl (es_w e) i) || isZero (lbl (es_w e) j) || isOne (lbl (es_w e) j)).
    + cbn. split; [exact D|]. split; [exact F|]. exists []. now rewrite app_nil_r.
    + cbn [wp fget other fset]. split; [exact D|]. intros bs _. cbn. split; [exact D|]. split; [exact F|]. exists []. now rewrite app_nil_r.
  - injection E as <- <-. cbn. split; [exact D|]. split; [exact F|]. exists []. now rewrite app_nil_r.
  - injection E as <- <-. cbn. split; [exact D|]. split; [exact F|]. exists []. now rewrite app_nil_r.
  - assert (F' : es_f e = oe_f s').
    { rewrite F. destruct p.
      - destruct (oe_reveal_send _) as [be m]. destruct (og_reveal_recv _ _) as [[? ?]| |]; cbn [bind] in E; try discriminate. now injection E as <- <-.
      - destruct (og_reveal_send _) as [be m]. destruct (oe_reveal_recv _ _) as [[? ?]| |]; cbn [bind] in E; try discriminate. now injection E as <- <-.
      - destruct (og_reveal_send _) as [be m]. destruct (oe_reveal_recv _ _) as [[? ?]| |]; cbn [bind] in E; try discriminate.
        destruct (recv as_bits _) as [[? ?]| |]; cbn [bind] in E; try discriminate.
        destruct (recv as_hash _) as [[? ?]| |]; cbn [bind] in E; try discriminate.
        destruct (og_reveal_check _ _ _ _ _); cbn [bind] in E; try discriminate. now injection E as <- <-. }
    assert (SE : forall (b : list bool) (d' : flags), length b = length ws -> snd d' = false ->
      snd d' = false /\ es_f e = oe_f s' /\ exists v, es_saw e ++ [b] = es_saw e ++ v /\ map (@length bool) v = [length ws]).
    { intros b d' L D'. split; [exact D'|]. split; [exact F'|]. exists [b]. cbn. now rewrite L. }
    destruct p.
    + destruct (oe_reveal_send (map (lbl (es_w e)) ws)) as [b m] eqn:R. apply wp_sends; [exact D|]. intros x _. cbn [wp es_f es_saw].
      apply SE; [|reflexivity].
      enough (X : length (fst (oe_reveal_send (map (lbl (es_w e)) ws))) = length ws) by (rewrite R in X; exact X).
      clear. induction ws as [|w ws IH]; [reflexivity|]. cbn [map oe_reveal_send]. destruct (oe_reveal_send (map (lbl (es_w e)) ws)).
      cbn [fst] in *. destruct (isOne _); [|destruct (isZero _)]; cbn; now rewrite IH.
    + apply wp_bind, wp_reveal; [exact D|]. intros b d' L D'. rewrite map_length in L. cbn [wp es_f es_saw]. apply SE; assumption.
    + apply wp_bind, wp_reveal; [exact D|]. intros b d' L D'. rewrite map_length in L. apply wp_sends; [exact D'|]. intros x _.
      cbn [wp es_f es_saw]. apply SE; [assumption|reflexivity].
Qed.
Lemma wp_eva : forall prog s s' op e d, o_run s prog = Ok (s', op) -> es_f e = oe_f s -> snd d = false ->
  wp (p_eva e prog) d (fun r d' => snd d' = false /\
    match r with
    | Ok e' => es_f e' = oe_f s' /\ exists v, es_saw e' = es_saw e ++ v /\ map (@length bool) v = reveals prog
    | _ => False end).
Proof.
  induction prog as [|c t IH]; intros s s' op g d E F D; cbn [M_Garble.o_run M_GcProc.p_eva] in *.
  - injection E as <- <-. cbn. split; [exact D|]. split; [exact F|]. exists []. now rewrite app_nil_r.
  - destruct (o_step s c) as [[s1 o1]| |] eqn:E1; cbn [bind] in E; try discriminate.
    destruct (o_run s1 t) as [[s2 o2]| |] eqn:E2; cbn [bind] in E; try discriminate. injection E as <- <-.
    apply wp_rbind. eapply wp_mono; [|eapply wp_eva_step; eassumption]. intros [g1| |] d1 [D1 H]; [|contradiction..].
    destruct H as (F1 & v & S1 & L1). eapply wp_mono; [|eapply IH; eassumption].
    intros [g2| |] d2 [D2 H]; (split; [exact D2|]); [|exact H..]. destruct H as (F2 & v2 & S2 & L2).
    split; [exact F2|]. exists (v ++ v2). rewrite S2, S1, map_app, L1, L2, app_assoc.
    split; [reflexivity|]. unfold reveals. cbn [flat_map]. now rewrite app_nil_r.
Qed.

(** * Circuits followed by a flush *)
Theorem stream_completes bs prog : wf 0 prog = true -> clean_run (o_init Kc rnd delta bs) [] [] prog ->
  exists s op, o_run (o_init Kc rnd delta bs) prog = Ok (s, op) /\ Forall2 seen (snd (spec_run [] prog)) op /\
    always_completes (rbind (p_gen (g0 Kc bs) prog) (fun g => Flush IO (Ret (Ok g))))
                     (rbind (p_eva (e0 Kc rnd delta bs) prog) (fun e => Flush IO (Ret (Ok e))))
      (Ok (gof s (saw true op))) (Ok (eof s (saw false op))).
Proof.
  intros W C.
  assert (H0 : oinv bs (o_init Kc rnd delta bs) [] []).
  { exists [], (pos_init bs). split; [constructor|]. repeat (split; [reflexivity|]). apply finv_init. }
  destruct (stream_conv bs prog (o_init Kc rnd delta bs) [] [] [] [] H0 W C) as (s & op & R & _ & O & V).
  exists s, op. split; [exact R|]. split; [exact O|]. cbn [app] in V.
  assert (V' : conv (rbind (p_gen (g0 Kc bs) prog) (fun g => Flush IO (Ret (Ok g))))
                    (rbind (p_eva (e0 Kc rnd delta bs) prog) (fun e => Flush IO (Ret (Ok e))))
      (Ok (gof s (saw true op))) (Ok (eof s (saw false op)))).
  { eapply conv_rbind; [exact V|]. eapply conv_ab; apply solo_one; constructor. }
  destruct V' as [n V']. eapply completes; [| |exact V'].
  - unfold disciplined. apply wp_rbind. eapply wp_mono; [|eapply wp_gen; [exact R|reflexivity|reflexivity]].
    intros [g| |] [d1 d2] [D H]; cbn [snd fst] in *; subst; [reflexivity| |contradiction]. cbn [wp]. reflexivity.
  - unfold disciplined. apply wp_rbind. eapply wp_mono; [|eapply wp_eva; [exact R|reflexivity|reflexivity]].
    intros [g| |] [d1 d2] [D H]; cbn [snd fst] in *; subst; [reflexivity|contradiction..].
Qed.
End GC.
