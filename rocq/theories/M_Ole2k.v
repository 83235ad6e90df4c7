(** Model of /repo/backend/ole_f2k.h: OLE over GF(2^128).  Correlated randomness from the
    random-OT extension (send_rot/recv_rot, emp-ot, not in /repo) is an explicit input:
    the sender holds two lists, the receiver the chosen entries. *)
From Coq Require Import List NArith Bool Arith.
From Verif Require Import L_Bits.
Import ListNotations.
Local Open Scope N_scope.

Section OLEF2K.
(** gfmul_reflect (emp-tool, not in /repo) *)
Variable gfmul_reflect : N -> N -> N.

(** GaloisFieldPacking::base (emp-tool, not in /repo): base[j] is the block with only bit
    j set *)
Definition pack_base : list N := map (fun j => N.shiftl 1 (N.of_nat j)) (seq 0 128).

(** inner_prod: /repo/backend/ole_f2k.h:16-24; the loop runs over two equally long
    arrays *)
Definition inner_prod (a b : list N) : N :=
  fold_left (fun r p => N.lxor r (gfmul_reflect (fst p) (snd p))) (combine a b) 0.

(** messages of the sending party: /repo/backend/ole_f2k.h:34-38; [raw0], [raw1] are the
    128 * length OT strings, row i belongs to in[i] *)
Definition ole_send_msgs (raw0 raw1 : list (list N)) (ins : list N) : list (list N) :=
  map (fun p => map (fun q => N.lxor (N.lxor (fst q) (snd q)) (snd p))
                    (combine (fst (fst p)) (snd (fst p))))
      (combine (combine raw0 raw1) ins).
(** output of the sending party: /repo/backend/ole_f2k.h:39 *)
Definition ole_send_out (raw0 : list (list N)) : list N :=
  map (fun row => inner_prod row pack_base) raw0.

(** block_to_bool of emp-tool: bit j of the register
    (used in /repo/backend/ole_f2k.h:45) *)
Definition block_to_bool (x : N) : list bool := bits_of_N 128 x.
(** what recv_rot returns for the choice bits: /repo/backend/ole_f2k.h:45-48 *)
Definition rot_choose (raw0 raw1 : list (list N)) (ins : list N) : list (list N) :=
  map (fun p => map (fun q : N * N * bool => if snd q then snd (fst q) else fst (fst q))
                    (combine (combine (fst (fst p)) (snd (fst p))) (block_to_bool (snd p))))
      (combine (combine raw0 raw1) ins).
(** output of the receiving party: /repo/backend/ole_f2k.h:50-60 *)
Definition ole_recv_out (rots msgs : list (list N)) (ins : list N) : list N :=
  map (fun p =>
    inner_prod
      (map (fun q : N * N * bool => if snd q then N.lxor (fst (fst q)) (snd (fst q)) else fst (fst q))
           (combine (combine (fst (fst p)) (snd (fst p))) (block_to_bool (snd p))))
      pack_base)
    (combine (combine rots msgs) ins).

(** one honest run of compute on both sides: /repo/backend/ole_f2k.h:27-62 *)
Definition ole_run (raw0 raw1 : list (list N)) (in_s in_r : list N) : list N * list N :=
  let msgs := ole_send_msgs raw0 raw1 in_s in
  (ole_send_out raw0, ole_recv_out (rot_choose raw0 raw1 in_r) msgs in_r).
End OLEF2K.
