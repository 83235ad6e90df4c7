(** Model of what finalize_check opens, separated from what it does with it. *)
From Coq Require Import List NArith ZArith Bool Arith.
From Verif Require Import L_Bits L_Res M_EmpInteger M_Utils M_Bristol M_Block M_Shares M_Aead M_ItMac M_AeadProof M_Handshake M_Session.
Import ListNotations.

(** the blocks opened to both parties: /repo/protocol/post_record.h:176-186 *)
Definition final_open (Hc Hs cz0 sz0 : Integer) (enc_z0s : list Integer) (enc_num : nat) (dec_z0s : list Integer) (dec_num : nat) : list N :=
  let h := reverse_concat [] [Hc] in
  let h := reverse_concat h [Hs] in
  let h := reverse_concat h [cz0] in
  let h := reverse_concat h [sz0] in
  let h := reverse_concat h (firstn enc_num enc_z0s) in
  let h := reverse_concat h (firstn dec_num dec_z0s) in
  reveal_as 128 h.
(** the same for the call made after the proof phase:
    /repo/protocol/post_record.h:176-186, /repo/test/protocol.cpp:140-142 *)
Definition final_blocks (p : prd) (os : list pop) (xs : list (Integer * Integer)) : list N :=
  final_open (pf_H (pr_pc p)) (pf_H (pr_ps p)) (pr_cz0 p) (pr_sz0 p)
    (enc_z0s os xs) (length (encs_of os)) (dec_z0s os xs) (length (decs_of os)).
(** what each party computes from them alone: /repo/protocol/post_record.h:187-200 *)
Definition final_verdict (blks : list N) (finc fins : frec) (encs decs : list frec) : res bool :=
  (let* b0 := read_blk blks 0 in
   let* b1 := read_blk blks 1 in
   let* b2 := read_blk blks 2 in
   let* b3 := read_blk blks 3 in
   let res := compare_tag (fr_tag finc) b0 b2 (fr_ctxt finc) (fr_aad finc) in
   let res := res && compare_tag (fr_tag fins) b1 b3 (fr_ctxt fins) (fr_aad fins) in
   let* res := finalize_loop blks b0 4 encs res in
   finalize_loop blks b1 (4 + length encs) decs res)%res.
