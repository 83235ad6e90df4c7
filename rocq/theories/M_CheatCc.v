(** A key holder that departs from /repo/protocol/com_conv.h:282-431 in one call: mask_key
    (com_conv.h:264-270) hands a chosen number to the OLE where the code hands aDelta.  Not code of
    /repo; everything else is compute_com_send. *)
From Coq Require Import List NArith ZArith Bool Arith.
From Verif Require Import L_Bits L_Res L_Group S_Sched M_Utils M_Bn M_Ole M_Ec M_Commit M_ComConv M_Exch M_ExchCc.
Import ListNotations.
Local Open Scope Z_scope.

Section CHEAT.
Variables (ccrh ccrh_o : N -> N) (hash : list N -> list N) (prg : N -> nat -> nat -> list N).
Context {C : Curve}.
Notation point := (pt (cgrp C)).
Variable h : point.
Variable q : Z.

(** p_cc_send_head (/repo/protocol/com_conv.h:282-409) with [x] in place of aDelta in line 267;
    the result carries chi, yKEY and msg_y *)
Definition cheat_head (x : Z) (bs : nat) (seed bDelta : N) (aDelta : Z) (pa_sends : bool) (Delta : N)
    (rows : list (list N)) (com0 : list point) (bKEYs : list N) : proc (res (list Z * Z * Z)) :=
  if negb (cc_size_ok q bs) then Ret Err
  else
  rbind (local (cc_hash hash seed bDelta aDelta)) (fun com =>
  Send IO com (
  rbind (p_cc_ole ccrh_o q pa_sends Delta rows x) (fun oa =>
  let rKEY := q - oa in
  let l := cc_convert ccrh q bDelta aDelta bKEYs in
  rbind (p_send_bns IO (map fst l)) (fun _ =>
  let msg_com := hash (bn_hashed (map fst l)) in
  rbind (local (cc_chunk_len (length bKEYs) bs)) (fun cl =>
  rbind (local (cc_batches q (map snd l) bs cl)) (fun keys =>
  if negb (length com0 =? cl)%nat then Ret UB
  else
  rbind (p_recv_points (com0 ++ [EC_POINT_new])) (fun '(Ps, hs) =>
  let chi := cc_chi prg q (hash ((com ++ msg_com) ++ hs)) cl in
  let yKEY := cc_lin q rKEY (combine chi keys) in
  rbind (local (pc_linear_comb_com Ps (chi ++ [1]))) (fun com_y =>
  Recv IO DIGEST_SIZE (fun ycom =>
  rbind (p_recv_bn IO) (fun rnd_y =>
  rbind (p_recv_bn IO) (fun msg_y =>
  let res1 := pc_open_check h com_y rnd_y msg_y in
  Send IO (bytes_of_block seed) (Send IO (bytes_of_block bDelta) (
  rbind (p_send_bn IO aDelta) (fun _ =>
  Ret (Ok (chi, yKEY, msg_y)))))))))))))))).
(** then, in place of the checks of /repo/protocol/com_conv.h:411-430: what yMAC exceeds
    yKEY + msg_y * x by, handed to [dec] with chi *)
Definition cheat_tail {R} (x : Z) (dec : list Z -> Z -> R) (st : list Z * Z * Z) : proc (res R) :=
  let '(chi, yKEY, msg_y) := st in
  Recv IO 16 (fun sb =>
  rbind (p_recv_bn IO) (fun yMAC => Ret (Ok (dec chi ((yMAC - (yKEY + msg_y * x)) mod q))))).
(** the deviating version of /repo/protocol/com_conv.h:282-431 *)
Definition p_cc_cheat {R} (x : Z) (dec : list Z -> Z -> R) (bs : nat) (seed bDelta : N) (aDelta : Z) (pa_sends : bool) (Delta : N)
    (rows : list (list N)) (com0 : list point) (bKEYs : list N) : proc (res R) :=
  rbind (cheat_head x bs seed bDelta aDelta pa_sends Delta rows com0 bKEYs) (cheat_tail x dec).
End CHEAT.
