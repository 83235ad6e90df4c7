(** Model of ComConv, the conversion of IT-MACed bits into Pedersen commitments:
    /repo/protocol/com_conv.h:74-588.  Pa is the party running compute_com_send (it holds the
    keys), Pb the one running compute_com_recv (it holds the MACs). *)
From Coq Require Import List NArith ZArith Bool Arith.
From Verif Require Import L_Bits L_Res L_Group M_Utils M_Bn M_Ole M_Ec M_Commit.
Import ListNotations.
Local Open Scope Z_scope.

(** getLSB of a block (emp-tool)
    (used in /repo/protocol/com_conv.h:167, 489) *)
Definition getLSB (b : N) : bool := N.odd b.
(** BN_num_bits (OpenSSL)
    (used in /repo/protocol/com_conv.h:105, 108-110) *)
Definition BN_num_bits (a : Z) : nat := N.to_nat (N.size (Z.abs_N a)).

(** send_bn(io, bn, &hash): the hash absorbs the bytes of arr only, /repo/backend/bn_utils.h:20-28 *)
Definition bn_hashed (l : list Z) : list N := flat_map BN_bn2bin l.
(** recv_bn(io, bn, &hash): /repo/backend/bn_utils.h:31-40; the received bytes of arr, and
    the rest of the stream *)
Definition recv_arr (stream : list N) : res (list N * list N) :=
  if (length stream <? 4)%nat then Err
  else
    let len := u32_value (firstn 4 stream) in
    let rest := skipn 4 stream in
    if (N.of_nat bn_buf <? len)%N then UB
    else if (length rest <? N.to_nat len)%nat then Err
    else Ok (firstn (N.to_nat len) rest, skipn (N.to_nat len) rest).
(** used in /repo/protocol/com_conv.h:151-172, 400-401 *)
Fixpoint recv_arrs (n : nat) (stream : list N) : res (list (list N) * list N) :=
  match n with
  | O => Ok ([], stream)
  | S k => (let* (x, s) := recv_arr stream in let* (l, s') := recv_arrs k s in Ok (x :: l, s'))%res
  end.
(** io->recv_data(buf, n)
    (used in /repo/protocol/com_conv.h:343, 350, 393) *)
Definition recv_data (n : nat) (stream : list N) : res (list N * list N) :=
  if (length stream <? n)%nat then Err else Ok (firstn n stream, skipn n stream).

Section CC.
Variable ccrh : N -> N.
Variable hash : list N -> list N.
(** PRG::random_data (emp-tool): bytes of the k-th call on a PRG with the given seed *)
Variable prg : N -> nat -> nat -> list N.
Context {C : Curve}.
Notation point := (pt (cgrp C)).
Variable h : point.
Variable q : Z.

(** exp: /repo/protocol/com_conv.h:108-115 *)
Definition cc_exp : list Z := map (fun i => BN_mod (2 ^ Z.of_nat i) q) (seq 0 (BN_num_bits q)).

(** compute_hash: /repo/protocol/com_conv.h:121-133 *)
Definition cc_hash (seed bDelta : N) (aDelta : Z) : res (list N) :=
  let arr := BN_bn2bin aDelta in
  if (bn_buf <? length arr)%nat then UB
  else Ok (hash (bytes_of_block seed ++ bytes_of_block bDelta ++ u32_bytes (N.of_nat (length arr)) ++ arr)).

(** body of the loop of convert: /repo/protocol/com_conv.h:201-204; (msg, aKEY) *)
Definition cc_convert1 (bDelta : N) (aDelta : Z) (bKEY : N) : Z * Z :=
  let aKEY := bn_H ccrh bKEY q in
  let msg := bn_H ccrh (N.lxor bKEY bDelta) q in
  let msg := msg + aKEY in
  (BN_mod_add msg aDelta q, aKEY).
(** convert: /repo/protocol/com_conv.h:194-206 *)
Definition cc_convert (bDelta : N) (aDelta : Z) (bKEYs : list N) : list (Z * Z) :=
  map (cc_convert1 bDelta aDelta) bKEYs.
(** convert_send: /repo/protocol/com_conv.h:174-192; bytes sent, aKEYs, msg_com *)
Definition cc_convert_send (bDelta : N) (aDelta : Z) (bKEYs : list N) : res (list N * list Z * list N) :=
  let l := cc_convert bDelta aDelta bKEYs in
  (let* bytes := send_bns (map fst l) in
   Ok (bytes, map snd l, hash (bn_hashed (map fst l))))%res.
(** body of the second loop of convert_recv: /repo/protocol/com_conv.h:165-169 *)
Definition cc_mac (bMAC : N) (msg : Z) : Z :=
  let aMAC := bn_H ccrh bMAC q in
  if getLSB bMAC then BN_mod_add (msg - aMAC) q q else aMAC.
(** convert_recv: /repo/protocol/com_conv.h:151-172; aMACs, msg_com, rest of the stream *)
Definition cc_convert_recv (bMACs : list N) (stream : list N) : res (list Z * list N * list N) :=
  (let* (arrs, rest) := recv_arrs (length bMACs) stream in
   Ok (map2 cc_mac bMACs (map BN_bin2bn arrs), hash (concat arrs), rest))%res.

(** the size check: /repo/protocol/com_conv.h:291-298, 443-450 *)
Definition cc_size_ok (bs : nat) : bool := 2 ^ Z.of_nat bs - 1 <? q.
(** chunk_len: /repo/protocol/com_conv.h:320, 469; division by zero is undefined *)
Definition cc_chunk_len (n bs : nat) : res nat :=
  if (bs =? 0)%nat then UB else Ok ((n + bs - 1) / bs)%nat.
(** range of j in the loop over one chunk: /repo/protocol/com_conv.h:332, 488 *)
Definition cc_range (n bs i : nat) : list nat := seq 0 (Nat.min bs (n - i * bs)).
(** inner loop over the keys: /repo/protocol/com_conv.h:332-335 *)
Fixpoint cc_batch (vals : list Z) (base : nat) (js : list nat) (acc : Z) : res Z :=
  match js with
  | [] => Ok acc
  | j :: t =>
      (let* e := read (nth_error cc_exp j) in
       let* v := read (nth_error vals (base + j)) in
       cc_batch vals base t (BN_mod_add acc (BN_mod_mul e v q) q))%res
  end.
(** inner loop over the message bits: /repo/protocol/com_conv.h:488-494 *)
Fixpoint cc_msg (bMACs : list N) (base : nat) (js : list nat) (acc : Z) : res Z :=
  match js with
  | [] => Ok acc
  | j :: t =>
      (let* e := read (nth_error cc_exp j) in
       let* b := read (nth_error bMACs (base + j)) in
       cc_msg bMACs base t (if getLSB b then BN_mod_add acc e q else acc))%res
  end.
(** the loops of /repo/protocol/com_conv.h:331-336, 487-496 *)
Fixpoint mapM {A B} (f : A -> res B) (l : list A) : res (list B) :=
  match l with
  | [] => Ok []
  | x :: t => (let* y := f x in let* r := mapM f t in Ok (y :: r))%res
  end.
(** the loops over all chunks: /repo/protocol/com_conv.h:331-336, 487-496 *)
Definition cc_batches (vals : list Z) (bs chunk_len : nat) : res (list Z) :=
  mapM (fun i => cc_batch vals (i * bs) (cc_range (length vals) bs i) 0) (seq 0 chunk_len).
(** same code: /repo/protocol/com_conv.h:331-336, 487-496 *)
Definition cc_msgs (bMACs : list N) (bs chunk_len : nat) : res (list Z) :=
  mapM (fun i => cc_msg bMACs (i * bs) (cc_range (length bMACs) bs i) 0) (seq 0 chunk_len).

(** EC_POINT_point2oct into the shared 65-byte buffer, which is then sent whole:
    /repo/protocol/com_conv.h:510-519; the point at infinity only overwrites the first byte *)
Definition put_oct (buf : list N) (P : point) : list N :=
  let o := point2oct P in o ++ skipn (length o) buf.
(** same code: /repo/protocol/com_conv.h:510-519 *)
Fixpoint send_points (buf : list N) (Ps : list point) : list N :=
  match Ps with
  | [] => []
  | P :: t => let buf := put_oct buf P in buf ++ send_points buf t
  end.
(** receiving loop: /repo/protocol/com_conv.h:342-352; the return value of oct2point is not
    looked at: on failure the given point keeps its old value.  Points, hashed bytes, rest *)
Fixpoint recv_points (old : list point) (stream : list N) : res (list point * list N * list N) :=
  match old with
  | [] => Ok ([], [], stream)
  | P :: t =>
      (let* (buf, rest) := recv_data 65 stream in
       let P' := match oct2point buf with Some Q => Q | None => P end in
       let* (Ps, hs, rest) := recv_points t rest in
       Ok (P' :: Ps, buf ++ hs, rest))%res
  end.

(** gen_chi: /repo/protocol/com_conv.h:272-280; the seed is the first half of the digest,
    lines 364-367, 534-537 *)
Definition cc_chi (digest : list N) (n : nat) : list Z :=
  let seed := block_of_bytes (firstn 16 digest) in
  map (fun i => BN_mod (BN_bin2bn (prg seed i (BN_num_bytes q))) q) (seq 0 n).

(** linear combination of keys or MACs: /repo/protocol/com_conv.h:371-374, 540-543 *)
Fixpoint cc_lin (acc : Z) (l : list (Z * Z)) : Z :=
  match l with
  | [] => acc
  | (c, v) :: t => cc_lin (BN_mod_add acc (BN_mod_mul c v q) q) t
  end.

(** commitment to yMAC: /repo/protocol/com_conv.h:414-420, 563-573 *)
Definition cc_ymac_com (seed : N) (yMAC : Z) : res (list N) :=
  let arr := BN_bn2bin yMAC in
  if (bn_buf <? length arr)%nat then UB else Ok (hash (bytes_of_block seed ++ arr)).

(** open() of Pa: /repo/protocol/com_conv.h:208-212 *)
Definition cc_open_send (seed bDelta : N) (aDelta : Z) : res (list N) :=
  (let* b := send_bn aDelta in Ok (bytes_of_block seed ++ bytes_of_block bDelta ++ b))%res.
(** open(bMACs) of Pb: /repo/protocol/com_conv.h:213-253; [com] and [msg_com] are the stored
    digests *)
Definition cc_open_recv (com msg_com : list N) (bMACs : list N) (stream : list N) : res (bool * list N) :=
  (let* (sb, rest) := recv_data 16 stream in
   let* (db, rest) := recv_data 16 rest in
   let seed := block_of_bytes sb in
   let bDelta := block_of_bytes db in
   let* (aDelta, rest) := recv_bn rest in
   let* tmp_com := cc_hash seed bDelta aDelta in
   let* r1 := strncmp0 DIGEST_SIZE tmp_com com in
   let bkeys := map (fun b => if getLSB b then N.lxor b bDelta else b) bMACs in
   let l := cc_convert bDelta aDelta bkeys in
   if existsb (fun m => (bn_buf <? length (BN_bn2bin m))%nat) (map fst l) then UB
   else
     let tmp_com := hash (bn_hashed (map fst l)) in
     let* r2 := strncmp0 DIGEST_SIZE tmp_com msg_com in
     Ok (r1 && r2, rest))%res.

(** the OLE on r (Pb) and aDelta (Pa): /repo/protocol/com_conv.h:255-270.  [pa_sends]: Pa is
    the sender of the correlated OT the object was built with; [Delta], [raw] are that OT's
    randomness.  Result: the outputs of Pa and Pb *)
Definition cc_ole (pa_sends : bool) (Delta : N) (raw : list (list N)) (aDelta r : Z) : res (Z * Z) :=
  let ins := if pa_sends then ([aDelta], [r]) else ([r], [aDelta]) in
  (let* (oo, _) := ole_compute ccrh q (BN_num_bits q) Delta raw (fst ins) (snd ins) in
   let (os, or_) := oo in
   let* a := read (nth_error os 0) in
   let* b := read (nth_error or_ 0) in
   Ok (if pa_sends then (a, b) else (b, a)))%res.

(** Pa after the OLE and convert_send: what it computes from the bytes of the commitments:
    /repo/protocol/com_conv.h:319-403.  [com0] are the points passed in by the caller; a
    vector of another size than chunk_len (out of bounds, or a failed assert) is [UB] here.
    Result: points, yKEY, com_y, rest *)
Definition cc_pa_mid (bs : nat) (com0 : list point) (rKEY : Z) (aKEYs : list Z) (absorbed stream : list N)
  : res (list point * Z * point * list N) :=
  (let* cl := cc_chunk_len (length aKEYs) bs in
   let* keys := cc_batches aKEYs bs cl in
   if negb (length com0 =? cl)%nat then UB
   else
     let* (Ps, hs, rest) := recv_points (com0 ++ [EC_POINT_new]) stream in
     let chi := cc_chi (hash (absorbed ++ hs)) cl in
     let yKEY := cc_lin rKEY (combine chi keys) in
     let* com_y := pc_linear_comb_com Ps (chi ++ [1]) in
     Ok (firstn cl Ps, yKEY, com_y, rest))%res.
(** the last checks of Pa: /repo/protocol/com_conv.h:407-430; [s1] is what arrives before it
    opens, [s2] what arrives after *)
Definition cc_pa_end (com_y : point) (yKEY aDelta : Z) (s1 s2 : list N) : res bool :=
  (let* (ycom, s1) := recv_data DIGEST_SIZE s1 in
   let* (rnd_y, s1) := recv_bn s1 in
   let* (msg_y, s1) := recv_bn s1 in
   let res1 := pc_open_check h com_y rnd_y msg_y in
   let* (sb, s2) := recv_data 16 s2 in
   let* (yMAC, s2) := recv_bn s2 in
   let* ycom' := cc_ymac_com (block_of_bytes sb) yMAC in
   let* res2 := memcmp0 DIGEST_SIZE ycom ycom' in
   let m := BN_mod_mul msg_y aDelta q in
   let yKEY := BN_mod_add yKEY m q in
   Ok (res1 && res2 && (yMAC =? yKEY)))%res.

(** Pb between convert_recv and open: /repo/protocol/com_conv.h:471-579.  [rnds], [rnd_r] are
    the values drawn by commit (vectors of another size than chunk_len: [UB]), [buf0] the
    uninitialised buffer, [yseed] the seed drawn.
    Result: points, bytes of the points, yMAC, bytes sent before open *)
Definition cc_pb_mid (bs : nat) (rMAC r : Z) (rnds : list Z) (rnd_r : Z) (buf0 : list N) (yseed : N)
    (bMACs : list N) (aMACs : list Z) (absorbed : list N)
  : res (list point * list N * Z * list N) :=
  (let* cl := cc_chunk_len (length bMACs) bs in
   let* msgs := cc_msgs bMACs bs cl in
   let* macs := cc_batches aMACs bs cl in
   if negb (length rnds =? cl)%nat then UB
   else
     let com := map2 (pc_commit h) rnds msgs in
     let comm_r := pc_commit h rnd_r r in
     let pts := send_points buf0 (com ++ [comm_r]) in
     let chi := cc_chi (hash (absorbed ++ pts)) cl in
     let yMAC := cc_lin rMAC (combine chi macs) in
     let* rnd_y := @pc_linear_comb_rand C (rnds ++ [rnd_r]) (chi ++ [1]) in
     let* msg_y := @pc_linear_comb_rand C (msgs ++ [r]) (chi ++ [1]) in
     let* ycom := cc_ymac_com yseed yMAC in
     let* b := send_bns [rnd_y; msg_y] in
     Ok (com, pts, yMAC, ycom ++ b))%res.
(** Pb after open: /repo/protocol/com_conv.h:583-586 *)
Definition cc_pb_end (yseed : N) (yMAC : Z) : res (list N) :=
  (let* b := send_bn yMAC in Ok (bytes_of_block yseed ++ b))%res.

(** everything drawn at random in one run
    (drawn in /repo/protocol/com_conv.h:303, 504, 567 and inside the OLE) *)
Record cc_rand : Type := {
  cr_aDelta : Z; cr_seed : N;             (* Pa: 303, 141 *)
  cr_r : Z; cr_rnds : list Z; cr_rnd_r : Z; cr_yseed : N;   (* Pb: 257, 32, 32, 568 *)
  cr_pa_sends : bool; cr_Delta : N; cr_raw : list (list N); (* the correlated OT *)
  cr_buf : list N                          (* contents of the new buffer, 511 *)
}.
(** one run of compute_com_send and compute_com_recv with both parties honest:
    /repo/protocol/com_conv.h:282-431, 433-587.  Result: Pa's points and verdict, Pb's points
    and verdict *)
Definition cc_run (bs : nat) (bDelta : N) (com0 : list point) (bKEYs bMACs : list N) (r : cc_rand)
  : res (list point * bool * list point * bool) :=
  if negb (cc_size_ok bs) then Err
  else
  (let* com := cc_hash (cr_seed r) bDelta (cr_aDelta r) in
   let* (oa, rMAC) := cc_ole (cr_pa_sends r) (cr_Delta r) (cr_raw r) (cr_aDelta r) (cr_r r) in
   let rKEY := q - oa in
   let* (m1, aKEYs, msg_com_a) := cc_convert_send bDelta (cr_aDelta r) bKEYs in
   let* (aMACs, msg_com_b, _) := cc_convert_recv bMACs m1 in
   let* (comb, pts, yMAC, m2) :=
     cc_pb_mid bs rMAC (cr_r r) (cr_rnds r) (cr_rnd_r r) (cr_buf r) (cr_yseed r) bMACs aMACs (com ++ msg_com_b) in
   let* (coma, yKEY, com_y, _) := cc_pa_mid bs com0 rKEY aKEYs (com ++ msg_com_a) pts in
   let* m3 := cc_open_send (cr_seed r) bDelta (cr_aDelta r) in
   let* (resb, _) := cc_open_recv com msg_com_b bMACs m3 in
   let* m4 := cc_pb_end (cr_yseed r) yMAC in
   let* resa := cc_pa_end com_y yKEY (cr_aDelta r) m2 m4 in
   Ok (coma, resa, comb, resb))%res.
End CC.
