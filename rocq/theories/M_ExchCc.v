(** Model of the traffic of ComConv, one program per party:
    /repo/protocol/com_conv.h:135-149, 151-192, 208-270, 282-588.  Everything goes over one
    channel.  As in M_Exch the traffic of the OT extension is not modelled. *)
From Coq Require Import List NArith ZArith Bool Arith.
From Verif Require Import L_Bits L_Res S_Sched L_Group M_Utils M_Bn M_Ole M_Ec M_Commit M_ComConv M_Exch.
Import ListNotations.
Local Open Scope Z_scope.

(** recv_bn(io, bn, &hash): /repo/backend/bn_utils.h:31-40; the bytes of arr *)
Definition p_recv_arr (c : chan) : proc (res (list N)) :=
  Recv c 4 (fun h =>
    let len := u32_value h in
    if (N.of_nat bn_buf <? len)%N then Ret UB
    else Recv c (N.to_nat len) (fun arr => Ret (Ok arr))).
(** the receiving loop of convert_recv: /repo/protocol/com_conv.h:157-161 *)
Fixpoint p_recv_arrs (c : chan) (n : nat) : proc (res (list (list N))) :=
  match n with
  | O => Ret (Ok [])
  | S k => rbind (p_recv_arr c) (fun x => rbind (p_recv_arrs c k) (fun l => Ret (Ok (x :: l))))
  end.

Section CC.
(** [ccrh] is the hash of the ComConv object, [ccrh_o] that of its OLE object (the same
    function in the code, both are CCRH with the default key) *)
Variable ccrh ccrh_o : N -> N.
Variable hash : list N -> list N.
Variable prg : N -> nat -> nat -> list N.
Context {C : Curve}.
Notation point := (pt (cgrp C)).
Variable h : point.
Variable q : Z.

(** the sending loop: /repo/protocol/com_conv.h:510-519 *)
Fixpoint p_send_points (buf : list N) (Ps : list point) : proc (res unit) :=
  match Ps with
  | [] => Ret (Ok tt)
  | P :: t => let buf := put_oct buf P in Send IO buf (p_send_points buf t)
  end.
(** the receiving loop: /repo/protocol/com_conv.h:342-352; points and the bytes hashed *)
Fixpoint p_recv_points (old : list point) : proc (res (list point * list N)) :=
  match old with
  | [] => Ret (Ok ([], []))
  | P :: t =>
      Recv IO 65 (fun buf =>
      let P' := match oct2point buf with Some Q => Q | None => P end in
      rbind (p_recv_points t) (fun '(Ps, hs) => Ret (Ok (P' :: Ps, buf ++ hs))))
  end.
(** what the OT of the OLE delivers: its strings to the sender, the chosen ones to the
    receiver whose input is x (/repo/backend/ole.h:53-58, 72-78) *)
Definition cc_rows (sends : bool) (Delta : N) (raw : list (list N)) (x : Z) : list (list N) :=
  if sends then raw else map2 (fun row x => cot_recv Delta row (ole_bits (BN_num_bits q) x)) raw [x].
(** the OLE on one pair: /repo/protocol/com_conv.h:255-270; [sends] decides which side of
    ole.h this party plays, [rows] is what its OT delivers (the sender's strings, or the
    receiver's chosen ones) *)
Definition p_cc_ole (sends : bool) (Delta : N) (rows : list (list N)) (x : Z) : proc (res Z) :=
  rbind (if sends then p_ole_send ccrh_o q (BN_num_bits q) Delta rows [x]
         else p_ole_recv ccrh_o q (BN_num_bits q) rows [x])
    (fun o => local (read (nth_error o 0))).

(** compute_com_send up to and including open(): /repo/protocol/com_conv.h:282-409.
    Result: points, yKEY, yMAC_com, msg_y, verdict so far *)
Definition p_cc_send_head (bs : nat) (seed bDelta : N) (aDelta : Z) (pa_sends : bool) (Delta : N)
    (rows : list (list N)) (com0 : list point) (bKEYs : list N)
  : proc (res (list point * Z * list N * Z * bool)) :=
  if negb (cc_size_ok q bs) then Ret Err
  else
  rbind (local (cc_hash hash seed bDelta aDelta)) (fun com =>
  Send IO com (
  rbind (p_cc_ole pa_sends Delta rows aDelta) (fun oa =>
  let rKEY := q - oa in
  let l := cc_convert ccrh q bDelta aDelta bKEYs in
  rbind (p_send_bns IO (map fst l)) (fun _ =>
  let msg_com := hash (bn_hashed (map fst l)) in
  rbind (local (cc_chunk_len (length bKEYs) bs)) (fun cl =>
  rbind (local (cc_batches q (map snd l) bs cl)) (fun keys =>
  if negb (length com0 =? cl)%nat then Ret UB
  else
  rbind (p_recv_points (com0 ++ [EC_POINT_new])) (fun '(Ps, hs) =>
  let chi := cc_chi prg q (hash ((com ++ msg_com) ++ hs)) cl in
  let yKEY := cc_lin q rKEY (combine chi keys) in
  rbind (local (pc_linear_comb_com Ps (chi ++ [1]))) (fun com_y =>
  Recv IO DIGEST_SIZE (fun ycom =>
  rbind (p_recv_bn IO) (fun rnd_y =>
  rbind (p_recv_bn IO) (fun msg_y =>
  let res1 := pc_open_check h com_y rnd_y msg_y in
  Send IO (bytes_of_block seed) (Send IO (bytes_of_block bDelta) (
  rbind (p_send_bn IO aDelta) (fun _ =>
  Ret (Ok (firstn cl Ps, yKEY, ycom, msg_y, res1)))))))))))))))).
(** the rest of compute_com_send: /repo/protocol/com_conv.h:411-430; points and verdict *)
Definition p_cc_send_tail (aDelta : Z) (st : list point * Z * list N * Z * bool) : proc (res (list point * bool)) :=
  let '(com, yKEY, ycom, msg_y, res1) := st in
  Recv IO 16 (fun sb =>
  rbind (p_recv_bn IO) (fun yMAC =>
  rbind (local (cc_ymac_com hash (block_of_bytes sb) yMAC)) (fun ycom' =>
  rbind (local (memcmp0 DIGEST_SIZE ycom ycom')) (fun res2 =>
  let m := BN_mod_mul msg_y aDelta q in
  let yKEY := BN_mod_add yKEY m q in
  Ret (Ok (com, res1 && res2 && (yMAC =? yKEY))))))).
(** compute_com_send: /repo/protocol/com_conv.h:282-431 *)
Definition p_cc_send (bs : nat) (seed bDelta : N) (aDelta : Z) (pa_sends : bool) (Delta : N)
    (rows : list (list N)) (com0 : list point) (bKEYs : list N) : proc (res (list point * bool)) :=
  rbind (p_cc_send_head bs seed bDelta aDelta pa_sends Delta rows com0 bKEYs) (p_cc_send_tail aDelta).

(** open(bMACs): /repo/protocol/com_conv.h:213-253 *)
Definition p_cc_open (com msg_com : list N) (bMACs : list N) : proc (res bool) :=
  Recv IO 16 (fun sb => Recv IO 16 (fun db =>
  let seed := block_of_bytes sb in
  let bDelta := block_of_bytes db in
  rbind (p_recv_bn IO) (fun aDelta =>
  rbind (local (cc_hash hash seed bDelta aDelta)) (fun tmp_com =>
  rbind (local (strncmp0 DIGEST_SIZE tmp_com com)) (fun r1 =>
  let bkeys := map (fun b => if getLSB b then N.lxor b bDelta else b) bMACs in
  let l := cc_convert ccrh q bDelta aDelta bkeys in
  if existsb (fun m => (bn_buf <? length (BN_bn2bin m))%nat) (map fst l) then Ret UB
  else
  rbind (local (strncmp0 DIGEST_SIZE (hash (bn_hashed (map fst l))) msg_com)) (fun r2 =>
  Ret (Ok (r1 && r2)))))))).
(** compute_com_recv up to and including open(bMACs): /repo/protocol/com_conv.h:433-581.
    Result: points, yMAC, verdict *)
Definition p_cc_recv_head (bs : nat) (r : Z) (rnds : list Z) (rnd_r : Z) (yseed : N) (buf0 : list N) (pa_sends : bool)
    (Delta : N) (rows : list (list N)) (bMACs : list N) : proc (res (list point * Z * bool)) :=
  if negb (cc_size_ok q bs) then Ret Err
  else
  Recv IO DIGEST_SIZE (fun com =>
  rbind (p_cc_ole (negb pa_sends) Delta rows r) (fun rMAC =>
  rbind (p_recv_arrs IO (length bMACs)) (fun arrs =>
  let aMACs := map2 (cc_mac ccrh q) bMACs (map BN_bin2bn arrs) in
  let msg_com := hash (concat arrs) in
  rbind (local (cc_chunk_len (length bMACs) bs)) (fun cl =>
  rbind (local (cc_msgs q bMACs bs cl)) (fun msgs =>
  rbind (local (cc_batches q aMACs bs cl)) (fun macs =>
  if negb (length rnds =? cl)%nat then Ret UB
  else
  let coms := map2 (pc_commit h) rnds msgs in
  let comm_r := pc_commit h rnd_r r in
  rbind (p_send_points buf0 (coms ++ [comm_r])) (fun _ =>
  let pts := send_points buf0 (coms ++ [comm_r]) in
  let chi := cc_chi prg q (hash ((com ++ msg_com) ++ pts)) cl in
  let yMAC := cc_lin q rMAC (combine chi macs) in
  rbind (local (@pc_linear_comb_rand C (rnds ++ [rnd_r]) (chi ++ [1]))) (fun rnd_y =>
  rbind (local (@pc_linear_comb_rand C (msgs ++ [r]) (chi ++ [1]))) (fun msg_y =>
  rbind (local (cc_ymac_com hash yseed yMAC)) (fun ycom =>
  Send IO ycom (
  rbind (p_send_bn IO rnd_y) (fun _ =>
  rbind (p_send_bn IO msg_y) (fun _ =>
  rbind (p_cc_open com msg_com bMACs) (fun res =>
  Ret (Ok (coms, yMAC, res)))))))))))))))).
(** the rest of compute_com_recv: /repo/protocol/com_conv.h:583-586; there is no flush *)
Definition p_cc_recv_tail (yseed : N) (st : list point * Z * bool) : proc (res (list point * bool)) :=
  let '(com, yMAC, res) := st in
  Send IO (bytes_of_block yseed) (rbind (p_send_bn IO yMAC) (fun _ => Ret (Ok (com, res)))).
(** compute_com_recv: /repo/protocol/com_conv.h:433-587 *)
Definition p_cc_recv (bs : nat) (r : Z) (rnds : list Z) (rnd_r : Z) (yseed : N) (buf0 : list N) (pa_sends : bool)
    (Delta : N) (rows : list (list N)) (bMACs : list N) : proc (res (list point * bool)) :=
  rbind (p_cc_recv_head bs r rnds rnd_r yseed buf0 pa_sends Delta rows bMACs) (p_cc_recv_tail yseed).
(** the same, with the caller flushing the channel afterwards (some later traffic on the
    channel; /repo/test/com_conv.cpp:67 has none before finalize_protocol) *)
Definition p_cc_recv_flushed (bs : nat) (r : Z) (rnds : list Z) (rnd_r : Z) (yseed : N) (buf0 : list N) (pa_sends : bool)
    (Delta : N) (rows : list (list N)) (bMACs : list N) : proc (res (list point * bool)) :=
  pbind (p_cc_recv bs r rnds rnd_r yseed buf0 pa_sends Delta rows bMACs) (fun o => Flush IO (Ret o)).
End CC.

(** * The base of the commitments as the test driver makes it *)
Section SETUP.
Context {C : Curve}.
Notation point := (pt (cgrp C)).
(** s = sa + sb mod order and h = s * G: /repo/test/com_conv.cpp:30-32 *)
Definition cc_base (sa sb : Z) : Z * point :=
  let s := BN_mod_add sa sb (order C) in (s, EC_POINT_mul (Some s) None).
(** ALICE: /repo/test/com_conv.cpp:22-25, 30-32; [sa] is the number drawn; result s and h *)
Definition p_base_alice (sa : Z) : proc (res (Z * point)) :=
  rbind (p_send_bn IO sa) (fun _ => rbind (p_recv_bn IO) (fun sb => Ret (Ok (cc_base sa sb)))).
(** BOB: /repo/test/com_conv.cpp:26-29, 30-32 *)
Definition p_base_bob (sb : Z) : proc (res (Z * point)) :=
  rbind (p_recv_bn IO) (fun sa => rbind (p_send_bn IO sb) (fun _ => Ret (Ok (cc_base sa sb)))).
(** the same, with the channel flushed by what BOB does next: compute_com_send receives on it
    (/repo/test/com_conv.cpp:57) *)
Definition p_base_bob_flushed (sb : Z) : proc (res (Z * point)) :=
  pbind (p_base_bob sb) (fun o => Flush IO (Ret o)).
End SETUP.
