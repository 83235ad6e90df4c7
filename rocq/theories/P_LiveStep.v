(** One request with other input bits: the programs still keep the discipline of the channel. *)
From Coq Require Import List NArith Bool Arith Lia.
From Verif Require Import L_Bits L_Res S_Circuit S_Sched M_Utils M_Block M_Garble M_Exch M_LabRec M_GcProc.
From Verif Require Import P_Garble P_GarbleFeed P_Utils P_Sched P_Exch P_ExchAead P_GcProc P_GcProc2 P_GcProc3.
Import ListNotations.
Local Open Scope N_scope.
Local Opaque bytes_of_block block_of_bytes dig_bytes.

Lemma shape_inv c c' : shape c' = shape c -> c' = c \/ exists p b b', c = IFeed p b /\ c' = IFeed p b' /\ length b' = length b.
Proof.
  destruct c as [x|p b|i j|i j|i|p ws], c' as [x'|p' b'|i' j'|i' j'|i'|p' ws']; cbn [shape]; intro H; try discriminate; try (left; congruence).
  right. injection H as -> H. exists p, b, b'. apply (f_equal (@length bool)) in H. rewrite !repeat_length in H. auto.
Qed.
Section GC.
Variables (sigma aes : N -> N) (Hash : list N -> N) (fixk Kc : nat -> N) (rnd : nat -> bool) (lab : nat -> N) (delta : N).
Notation o_step := (o_step sigma aes Hash fixk Kc rnd lab delta).
Notation n_step := (n_step sigma aes Hash fixk lab delta).

Lemma wp_gen_shape s c c' s' op g d : o_step s c = Ok (s', op) -> shape c' = shape c -> gs_f g = og_f s -> snd d = false ->
  wp (p_gen_step sigma aes Hash fixk Kc lab delta g c') d (fun r d' => snd d' = false /\
    match r with Ok g' => gs_f g' = og_f s' | Err => fst d' = false | UB => False end).
Proof.
  intros E S F D.
  assert (W : wp (p_gen_step sigma aes Hash fixk Kc lab delta g c) d (fun r d' => snd d' = false /\
    match r with Ok g' => gs_f g' = og_f s' | Err => fst d' = false | UB => False end)).
  { eapply wp_mono; [|eapply wp_gen_step; eassumption]. intros [g1| |] d1 [D1 H1]; (split; [exact D1|]); [exact (proj1 H1)|exact H1|exact H1]. }
  destruct (shape_inv _ _ S) as [->|(p & b & b' & -> & -> & L)]; [exact W|].
  destruct p; cbn [p_gen_step gen_feed] in *; [|rewrite L; exact W..].
  unfold local in *. cbn [rbind pbind wp gs_f] in *. rewrite L. exact W.
Qed.
Lemma eva_feed_len p b b' f l f' m : length b' = length b -> eva_feed Kc rnd lab delta p b f = Ok (l, f', m) ->
  exists l' m', eva_feed Kc rnd lab delta p b' f = Ok (l', f', m').
Proof.
  intros L H. unfold eva_feed in *. rewrite L. destruct p.
  - injection H as <- <- <-. eauto.
  - destruct (_ <? _)%nat; [injection H as <- <- <-; eauto|]. destruct (_ <? _)%nat; [discriminate|]. destruct (_ <? _)%nat.
    + repeat match type of H with bind ?x _ = _ => destruct x; cbn [bind] in H |- *; try discriminate end. injection H as <- <- <-. eauto.
    + repeat match type of H with bind ?x _ = _ => destruct x; cbn [bind] in H |- *; try discriminate end. injection H as <- <- <-. eauto.
  - destruct (_ <? _)%nat; [injection H as <- <- <-; eauto|]. destruct (_ <? _)%nat; [discriminate|]. destruct (_ <? _)%nat.
    + repeat match type of H with bind ?x _ = _ => destruct x; cbn [bind] in H |- *; try discriminate end. injection H as <- <- <-. eauto.
    + repeat match type of H with bind ?x _ = _ => destruct x; cbn [bind] in H |- *; try discriminate end. injection H as <- <- <-. eauto.
Qed.
Lemma wp_eva_shape s c c' s' op g d : o_step s c = Ok (s', op) -> shape c' = shape c -> es_f g = oe_f s -> snd d = false ->
  wp (p_eva_step sigma aes Hash fixk Kc rnd lab delta g c') d (fun r d' => snd d' = false /\
    match r with Ok g' => es_f g' = oe_f s' | Err => fst d' = false | UB => False end).
Proof.
  intros E S F D. destruct (shape_inv _ _ S) as [->|(p & b & b' & -> & -> & L)].
  - eapply wp_mono; [|eapply wp_eva_step; eassumption]. intros [g1| |] d1 [D1 H1]; (split; [exact D1|]); [exact (proj1 H1)|contradiction|contradiction].
  - cbn [M_Garble.o_step p_eva_step] in *.
    destruct (eva_feed Kc rnd lab delta p b (oe_f s)) as [[[le fe] m]| |] eqn:EE; cbn [bind] in E; try discriminate.
    destruct (gen_feed Kc lab delta p b (og_f s) (o_eg s ++ m)) as [[[lg fg] ch]| |] eqn:EG; cbn [bind] in E; try discriminate.
    injection E as <- <-. cbn [oe_f]. rewrite F. destruct (eva_feed_len _ _ _ _ _ _ _ L EE) as (l' & m' & ->).
    unfold local. apply wp_rbind. cbn [wp]. apply wp_sends; [exact D|]. intros x _. cbn. auto.
Qed.
Lemma wp_ngen_shape out GC pub s c c' s' op g d : n_step out GC pub s c = Ok (s', op) -> shape c' = shape c -> ngs_gid g = ng_gid s -> snd d = false ->
  wp (p_ngen_step Hash fixk lab delta out g c') d (fun r d' => snd d' = false /\
    match r with Ok g' => ngs_gid g' = ng_gid s' | Err => fst d' = false | UB => False end).
Proof.
  intros E S F D. destruct (shape_inv _ _ S) as [->|(p & b & b' & -> & -> & L)].
  - eapply wp_mono; [|eapply wp_ngen_step; eassumption]. intros [g1| |] d1 [D1 H1]; (split; [exact D1|]); [exact (proj1 H1)|exact H1|exact H1].
  - cbn [M_Garble.n_step p_ngen_step] in *. destruct (recv_labels _ _) as [[? ?]| |]; cbn [bind] in E; try discriminate. injection E as <- <-.
    apply wp_sends; [exact D|]. intros x _. cbn. auto.
Qed.
Hypothesis Bd : delta < 2 ^ 128.
Lemma wp_neva_shape out GC pub GC' pub' s c c' s' op g d : n_step out GC pub s c = Ok (s', op) -> shape c' = shape c ->
  length GC' = length GC -> length pub' = length pub -> nes_gid g = ne_gid s /\ nes_cnt g = ne_cnt s -> snd d = false ->
  wp (p_neva_step sigma aes Hash fixk lab delta GC' pub' g c') d (fun r d' => snd d' = false /\
    match r with Ok g' => nes_gid g' = ne_gid s' /\ nes_cnt g' = ne_cnt s' | Err => fst d' = false | UB => False end).
Proof.
  intros E S LG LP [F1 F2] D. destruct (shape_inv _ _ S) as [->|(p & b & b' & -> & -> & L)].
  - eapply wp_mono; [|eapply wp_neva_step; eassumption]. intros [g1| |] d1 [D1 H1]; (split; [exact D1|]); [tauto|contradiction|contradiction].
  - cbn [M_Garble.n_step p_neva_step] in *. destruct (recv_labels _ _) as [[? ?]| |]; cbn [bind] in E; try discriminate. injection E as <- <-.
    destruct p; [|cbn; auto..]. apply wp_bind. unfold p_labels. cbn [wp fget other fset]. split; [exact D|]. intros. cbn. auto.
Qed.
End GC.
