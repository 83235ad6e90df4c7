(** The backend programs of a party do not use the bits the peer feeds. *)
From Coq Require Import List NArith Bool Arith.
From Verif Require Import L_Bits L_Res S_Circuit S_Sched S_Lower S_Causal M_Utils M_Block M_Garble M_Exch M_GcProc.
From Verif Require S_Netlist.
Import ListNotations.

Section GC.
Variables (sigma aes : N -> N) (Hash : list N -> N) (fixk Kc : nat -> N) (rnd : nat -> bool) (lab : nat -> N) (delta : N).
Lemma same_part alice e e' : own_part alice e = own_part alice e' -> e = e' \/
  exists p bs bs', peer alice p = true /\ e = S_Netlist.EFeed p bs /\ e' = S_Netlist.EFeed p bs' /\ length bs = length bs'.
Proof.
  intro H.
  destruct e as [| | |p bs|], e' as [| | |p0 bs0|]; cbn [own_part] in H;
    try (now left); try discriminate; try (destruct (peer alice _); discriminate).
  destruct (peer alice p) eqn:E, (peer alice p0) eqn:E0; injection H as <- H; try congruence.
  - right. exists p, bs, bs0. repeat (split; [auto|]). apply (f_equal (@length bool)) in H. now rewrite !repeat_length in H.
  - left. congruence.
Qed.
Lemma gen_own e e' s : own_part true e = own_part true e' ->
  p_gen_step sigma aes Hash fixk Kc lab delta s (low e) = p_gen_step sigma aes Hash fixk Kc lab delta s (low e').
Proof.
  intro H. destruct (same_part _ _ _ H) as [<-|([] & bs & bs' & P & -> & -> & L)]; [reflexivity|discriminate P| |discriminate P].
  cbn [low low_party p_gen_step]. now rewrite L.
Qed.
Lemma eva_own e e' s : own_part false e = own_part false e' ->
  p_eva_step sigma aes Hash fixk Kc rnd lab delta s (low e) = p_eva_step sigma aes Hash fixk Kc rnd lab delta s (low e').
Proof.
  intro H. destruct (same_part _ _ _ H) as [<-|([] & bs & bs' & P & -> & -> & L)]; [reflexivity| |discriminate P|discriminate P].
  cbn [low low_party p_eva_step eva_feed]. now rewrite L.
Qed.
Lemma ngen_own out e e' s : own_part true e = own_part true e' ->
  p_ngen_step Hash fixk lab delta out s (low e) = p_ngen_step Hash fixk lab delta out s (low e').
Proof.
  intro H. destruct (same_part _ _ _ H) as [<-|([] & bs & bs' & P & -> & -> & L)]; [reflexivity|discriminate P| |discriminate P].
  cbn [low low_party p_ngen_step]. now rewrite L.
Qed.
Lemma neva_own GC pub e e' s : own_part false e = own_part false e' ->
  p_neva_step sigma aes Hash fixk lab delta GC pub s (low e) = p_neva_step sigma aes Hash fixk lab delta GC pub s (low e').
Proof.
  intro H. destruct (same_part _ _ _ H) as [<-|([] & bs & bs' & P & -> & -> & L)]; [reflexivity| |discriminate P|discriminate P].
  cbn [low low_party p_neva_step]. now rewrite L.
Qed.
End GC.
