(** Model of /repo/backend/ole.h: OLE over a prime field.  The correlated OT of emp-ot
    (send_cot / recv_cot, not in /repo) is an explicit input: the sender's strings [raw]
    and its Delta; the receiver then holds raw xor (bit * Delta). *)
From Coq Require Import List NArith ZArith Bool Arith.
From Verif Require Import L_Bits L_Res M_Bn.
Import ListNotations.
Local Open Scope Z_scope.

Section OLE.
(** emp's CCRH (not in /repo) *)
Variable ccrh : N -> N.
Variable q : Z.
Variable bit_length : nat.

(** exp: /repo/backend/ole.h:28-35 *)
Definition ole_exp : list Z := map (fun i => BN_mod (2 ^ Z.of_nat i) q) (seq 0 bit_length).

(** inner loop of the sender: /repo/backend/ole.h:56-67; returns out[i] and the numbers
    handed to send_bn *)
Fixpoint ole_send_loop (Delta : N) (x : Z) (l : list (Z * N)) (out : Z) : Z * list Z :=
  match l with
  | [] => (out, [])
  | (e, raw) :: t =>
      let pad1 := bn_H ccrh raw q in
      let pad2 := bn_H ccrh (N.lxor raw Delta) q in
      let msg := BN_mod_add (pad1 + pad2) x q in
      let tmp := BN_mod_mul e (q - pad1) q in
      let out := BN_mod_add out tmp q in
      let (o, ms) := ole_send_loop Delta x t out in (o, msg :: ms)
  end.
(** outer loop of the sender: /repo/backend/ole.h:54-69; outputs and bytes on the wire *)
Fixpoint ole_send (Delta : N) (raw : list (list N)) (ins : list Z) : res (list Z * list N) :=
  match ins, raw with
  | [], _ => Ok ([], [])
  | x :: ins, row :: raw =>
      let (o, ms) := ole_send_loop Delta x (combine ole_exp row) 0 in
      (let* b := send_bns ms in
       let* (os, bs) := ole_send Delta raw ins in
       Ok (o :: os, b ++ bs))%res
  | _, _ => UB
  end.

(** choice bits: /repo/backend/ole.h:73-75 *)
Definition ole_bits (x : Z) : list bool := map (BN_is_bit_set x) (seq 0 bit_length).
(** what recv_cot returns: /repo/backend/ole.h:77 *)
Definition cot_recv (Delta : N) (row : list N) (bits : list bool) : list N :=
  map2 (fun r (b : bool) => if b then N.lxor r Delta else r) row bits.
(** inner loop of the receiver: /repo/backend/ole.h:81-90 *)
Fixpoint ole_recv_loop (l : list (Z * (N * bool))) (out : Z) (stream : list N) : res (Z * list N) :=
  match l with
  | [] => Ok (out, stream)
  | (e, (raw, bit)) :: t =>
      (let* (tmp, stream) := recv_bn stream in
       let msg := bn_H ccrh raw q in
       let msg := if bit then tmp - msg else msg in
       let tmp := BN_mod_mul e msg q in
       ole_recv_loop t (BN_mod_add out tmp q) stream)%res
  end.
(** outer loop of the receiver: /repo/backend/ole.h:79-91; [raw] are the strings returned
    by recv_cot *)
Fixpoint ole_recv (raw : list (list N)) (ins : list Z) (stream : list N) : res (list Z * list N) :=
  match ins, raw with
  | [], _ => Ok ([], stream)
  | x :: ins, row :: raw =>
      (let* (o, stream) := ole_recv_loop (combine ole_exp (combine row (ole_bits x))) 0 stream in
       let* (os, stream) := ole_recv raw ins stream in
       Ok (o :: os, stream))%res
  | _, _ => UB
  end.

(** one run of compute on both sides: /repo/backend/ole.h:43-93; the result also carries
    the bytes left unread *)
Definition ole_compute (Delta : N) (raw : list (list N)) (in_s in_r : list Z)
  : res (list Z * list Z * list N) :=
  (let* (os, bytes) := ole_send Delta raw in_s in
   let* (or_, rest) := ole_recv (map2 (fun row x => cot_recv Delta row (ole_bits x)) raw in_r) in_r bytes in
   Ok (os, or_, rest))%res.
End OLE.
