(** The client's check of the opened scalar, whatever the peer sends. *)
From Coq Require Import List NArith ZArith Bool Arith Lia.
From Verif Require Import L_Bits L_Res L_Modq L_Group S_Sched S_Eat S_Ec M_Bn M_Ec M_E2f M_Exch M_ExchDh P_Dh.
From Verif Require P_CcVerdict.
Import ListNotations.
Local Open Scope Z_scope.

Theorem reveal_verdict (C : Curve) (Ta : pt (cgrp C)) tb Ts s o r : annihilates C ->
  eat (p_reveal_alice (C := C) Ta tb Ts) s = Some (o, r) ->
  (o = UB /\ recv_bn s = UB) \/
  exists t, recv_bn s = Ok (t, r) /\ (smul t gen = Ta -> o = Ok (fst (affine (padd (smul t Ts) (smul tb Ts))))) /\ (smul t gen <> Ta -> o = Err).
Proof.
  intros A. unfold p_reveal_alice, rbind. rewrite P_CcVerdict.eat_bind.
  destruct (eat (p_recv_bn IO) s) as [[[t| |] t0]|] eqn:E; [| | |discriminate].
  - apply P_CcVerdict.eat_recv_bn in E. rewrite mul_gen, mul_pt. intro H. right. exists t.
    destruct (Z.eqb_spec (EC_POINT_cmp (smul t gen) Ta) 0) as [X|X]; cbn [negb eat] in H.
    + assert (t0 = r /\ o = Ok (fst (affine (smul (BN_mod_add t tb (order (cgrp C))) Ts)))) as [-> ->] by (split; congruence).
      split; [exact E|]. split; [|intro N; apply cmp_iff in X; contradiction].
      intros _. rewrite dh_sum. unfold BN_mod_add. now rewrite smul_mod by auto.
    + assert (t0 = r /\ o = Err) as [-> ->] by (split; congruence). split; [exact E|]. split; [|reflexivity].
      intro Y. exfalso. apply X. now apply cmp_iff.
  - exfalso. revert E. unfold p_recv_bn. cbn [eat]. destruct (_ <? _)%nat; [discriminate|]. cbv zeta.
    destruct (_ <? _)%N; cbn [eat]; [discriminate|]. destruct (_ <? _)%nat; discriminate.
  - cbn [eat]. intro H. left. split; [congruence|]. revert E. unfold p_recv_bn, recv_bn. cbn [eat]. destruct (_ <? _)%nat; [discriminate|]. cbv zeta.
    destruct (_ <? _)%N; cbn [eat]; [reflexivity|]. destruct (_ <? _)%nat; discriminate.
Qed.
