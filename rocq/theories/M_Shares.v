(** Model of the functions of /repo/cipher/utils.h that turn a garbled Integer into XOR
    shares: they look only at the least significant bit of each wire label, so the model
    takes the list of those bits as held by one party (index 0 first). *)
From Coq Require Import List NArith Bool Arith.
From Verif Require Import L_Bits L_Res.
Import ListNotations.
Local Open Scope N_scope.

(** integer_to_block: /repo/cipher/utils.h:257-271 (error() exits when the size is not
    128) *)
Definition itb_step (lsb : list bool) (b : N) (i : nat) : N :=
  let b := if nth i lsb false then N.lxor b (N.shiftl 1 (N.of_nat i)) else b in
  if nth (i + 64) lsb false then N.lxor b (N.shiftl (N.shiftl 1 (N.of_nat i)) 64) else b.
(** same code: /repo/cipher/utils.h:257-271 *)
Definition integer_to_block (lsb : list bool) : res N :=
  if (length lsb =? 128)%nat then Ok (fold_left (itb_step lsb) (seq 0 64) 0) else Err.

(** integer_to_block on an Integer of 128k bits: /repo/cipher/utils.h:279-290; entry i is
    the i-th group of 128 bits counted from the top *)
Definition integer_to_blocks (lsb : list bool) : res (list N) :=
  if (length lsb mod 128 =? 0)%nat
  then fold_right (fun i acc =>
         (let* b := integer_to_block (firstn 128 (skipn (length lsb - 128 * (i + 1)) lsb)) in
          let* t := acc in Ok (b :: t))%res) (Ok []) (seq 0 (length lsb / 128))
  else Err.

(** integer_to_chars: /repo/cipher/utils.h:292-304; a size that is not a multiple of 8
    reads past the vector *)
Definition itc_byte (c : list bool) : N :=
  fold_left (fun tmp j => if nth j c false then N.lxor tmp (N.shiftl 1 (7 - N.of_nat j)) else tmp)
    (seq 0 8) 0.
(** same code: /repo/cipher/utils.h:292-304 *)
Definition integer_to_chars (lsb : list bool) : res (list N) :=
  if (length lsb mod 8 =? 0)%nat then Ok (map itc_byte (chunks 8 (rev lsb))) else UB.
