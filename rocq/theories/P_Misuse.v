(** Sizes the functions are not made for. *)
From Coq Require Import List NArith ZArith Bool Arith Lia.
From Verif Require Import L_Bits L_Res S_Sched M_Bn M_Shares M_Exch P_Bn.
Import ListNotations.

Lemma share_sizes lsb : (length lsb <> 128 -> integer_to_block lsb = Err) /\
  (Nat.modulo (length lsb) 128 <> 0 -> integer_to_blocks lsb = Err) /\ (Nat.modulo (length lsb) 8 <> 0 -> integer_to_chars lsb = UB).
Proof.
  split; [|split]; intro H; apply Nat.eqb_neq in H.
  - unfold integer_to_block. now rewrite H.
  - unfold integer_to_blocks. now rewrite H.
  - unfold integer_to_chars. now rewrite H.
Qed.
(** the exchange programs fail exactly where the plain encoding does *)
Lemma p_send_bn_enc c x : p_send_bn c x = match send_bn x with
  | Ok _ => let a := BN_bn2bin x in Send c (u32_bytes (N.of_nat (length a))) (Send c a (Ret (Ok tt)))
  | Err => Ret Err | UB => Ret UB end.
Proof. unfold p_send_bn, send_bn. destruct (bn_buf <? length (BN_bn2bin x)); reflexivity. Qed.
Lemma p_send_bn_big c x : (256 ^ 1000 <= Z.abs_N x)%N -> p_send_bn c x = Ret UB.
Proof. intro H. rewrite p_send_bn_enc. now rewrite (send_bn_big x H). Qed.
Lemma p_recv_bn_big c h : (1000 < u32_value h)%N -> exists k, p_recv_bn c = Recv c 4 k /\ k h = Ret UB.
Proof.
  intro H. unfold p_recv_bn. eexists. split; [reflexivity|]. cbv beta zeta.
  assert (Q : (N.of_nat bn_buf <? u32_value h)%N = true) by (apply N.ltb_lt; exact H). now rewrite Q.
Qed.
