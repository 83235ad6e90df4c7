(** What a selective disclosure of a counter-mode record means, independently of the code:
    the key-stream byte at a position, and the bytes a mask selects. *)
From Coq Require Import List NArith Bool Arith.
From Verif Require Import S_Codec S_Gcm.
Import ListNotations.
Local Open Scope N_scope.

(** the counter block [n] steps after [x]: the low 32 bits count modulo 2^32 *)
Definition ctr_add (x n : N) : N := N.shiftl (N.shiftr x 32) 32 + (x mod 2 ^ 32 + n) mod 2 ^ 32.
(** the 16 key-stream bytes of plaintext block [id]; block 0 uses the counter after J0 *)
Definition stream_block (E : N -> N) (iv : list N) (id : N) : list N :=
  be_enc 16 (E (ctr_add (j0_of iv) (id + 1))).
(** the bytes whose mask byte is not zero, in order *)
Fixpoint select (mask bytes : list N) : list N :=
  match mask, bytes with
  | m :: ms, b :: bs => if m =? 0 then select ms bs else b :: select ms bs
  | _, _ => []
  end.
(** a request is a list of (block id, mask) *)
Definition selected (E : N -> N) (iv : list N) (req : list (N * list N)) : list N :=
  flat_map (fun r => select (snd r) (stream_block E iv (fst r))) req.
(** ids in increasing order *)
Fixpoint increasing (l : list N) : Prop :=
  match l with
  | a :: t => match t with b :: _ => a < b | [] => True end /\ increasing t
  | [] => True
  end.
