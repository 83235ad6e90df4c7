(** Model of /repo/backend/vope.h: vector oblivious polynomial evaluation over GF(2^128).
    The correlated OT of emp-ot is an explicit input (sender's strings, choice bits).  The
    array M is modelled as memory, because U, t1 and t2 alias it (lines 35-37). *)
From Coq Require Import List NArith Bool Arith.
From Verif Require Import L_Bits L_Res M_Block M_Ole2k.
Import ListNotations.
Local Open Scope N_scope.

(** array write
    (arrays of /repo/backend/vope.h:18-74) *)
Fixpoint upd (i : nat) (v : N) (l : list N) : list N :=
  match l, i with
  | [], _ => []
  | _ :: t, O => v :: t
  | x :: t, S k => x :: upd k v t
  end.
(** arrays of /repo/backend/vope.h:18-74 *)
Definition rd (l : list N) (i : nat) : N := nth i l 0.
(** row [i] of 128 elements
    (pointer arithmetic in /repo/backend/vope.h:38-41, 66-71) *)
Definition row {A} (i : nat) (l : list A) : list A := firstn 128 (skipn (128 * i) l).

Section VOPE.
(** the product used by GaloisFieldPacking::packing (emp-tool, not in /repo), which sums
    data[j] * base[j] *)
Variable gf : N -> N -> N.
(** pack.packing of emp-zk, called in /repo/backend/vope.h:39-40 *)
Definition packing (data : list N) : N := inner_prod gf data pack_base.
(** bool_to_block (emp-tool): bit j of the register is bits[j]
    (used in /repo/backend/vope.h:23-42) *)
Definition bool_to_block (bits : list bool) : N := N_of_bits bits.

(** what recv_cot returns: /repo/backend/vope.h:26 *)
Definition vope_cot (K : list N) (bits : list bool) (Delta : N) : list N :=
  map2 (fun k (b : bool) => if b then N.lxor k Delta else k) K bits.

(** /repo/backend/vope.h:31-33 *)
Definition vope_adjust (M : list N) (bits : list bool) (diff : N) : list N :=
  map2 (fun m (b : bool) => N.lxor m (if b then diff else 0)) M bits.
(** /repo/backend/vope.h:38-41 *)
Definition vope_pack_step (oles : nat) (bits : list bool) (M : list N) (i : nat) : list N :=
  let M := upd i (packing (row i M)) M in
  upd (oles + i) (bool_to_block (row i bits)) M.
(** /repo/backend/vope.h:46-49 *)
Definition vope_t_step (oles i : nat) (out : list N) (M : list N) (j : nat) : list N :=
  let M := upd (2 * oles + j) (mulBlock (rd out j) (rd M i)) M in
  upd (3 * oles + j) (mulBlock (rd out j) (rd M (oles + i))) M.
(** /repo/backend/vope.h:45-56 *)
Definition vope_step (length_ oles : nat) (Mo : list N * list N) (i : nat) : list N * list N :=
  let (M, out) := Mo in
  let M := fold_left (vope_t_step oles i out) (seq 0 (S i)) M in
  let out := upd 0 (rd M (2 * oles)) out in
  let out := fold_left (fun out j => upd j (N.lxor (rd M (3 * oles + (j - 1))) (rd M (2 * oles + j))) out) (seq 1 i) out in
  let out := upd (i + 1) (rd M (3 * oles + i)) out in
  let out := upd 0 (N.lxor (rd out 0) (rd M (length_ + i - 1))) out in
  let out := upd 1 (N.lxor (rd out 1) (rd M (oles + (length_ + i - 1)))) out in
  (M, out).
(** compute_recv: /repo/backend/vope.h:18-57; [out] is the caller's array of length+1
    blocks; length 0 asks for an array of negative size *)
Definition vope_recv (out : list N) (length_ : nat) (Mcot : list N) (bits : list bool) (diff : N) : res (list N) :=
  if (length_ =? 0)%nat then UB
  else if (length out <? length_ + 1)%nat then UB
  else
    let oles := (2 * length_ - 1)%nat in
    let M := vope_adjust Mcot bits diff in
    let M := fold_left (vope_pack_step oles bits) (seq 0 oles) M in
    let out := upd 1 (rd M oles) (upd 0 (rd M 0) out) in
    Ok (snd (fold_left (vope_step length_ oles) (seq 1 (length_ - 1)) (M, out))).
(** compute_send: /repo/backend/vope.h:58-74; the message is diff *)
Definition vope_send (K : list N) (h Delta : N) (length_ : nat) : res (N * N) :=
  if (length_ =? 0)%nat then UB
  else
    let diff := N.lxor h Delta in
    Ok (diff, fold_left (fun out i => N.lxor (mulBlock out (packing (row i K))) (packing (row (i + length_ - 1) K)))
                (seq 1 (length_ - 1)) (packing (row 0 K))).
(** one honest run
    (/repo/backend/vope.h:18-74) *)
Definition vope_run (out0 : list N) (length_ : nat) (K : list N) (bits : list bool) (h Delta : N) : res (N * list N) :=
  (let* (diff, o) := vope_send K h Delta length_ in
   let* r := vope_recv out0 length_ (vope_cot K bits Delta) bits diff in
   Ok (o, r))%res.
End VOPE.
