(** What one party's program sends and receives, in order, over every sequence of messages a peer could send.
    Independent of the model. *)
From Coq Require Import List NArith.
From Verif Require Import S_Sched.
Import ListNotations.

Inductive msg : Type := Sent (l : list N) | Got (l : list N).
(** the program sends and receives these pieces and ends with r *)
Inductive talk {A} : proc A -> list msg -> A -> Prop :=
| TRet a : talk (Ret a) [] a
| TSend c l p tr r : talk p tr r -> talk (Send c l p) (Sent l :: tr) r
| TFlush c p tr r : talk p tr r -> talk (Flush c p) tr r
| TRecv c n k bs tr r : length bs = n -> talk (k bs) tr r -> talk (Recv c n k) (Got bs :: tr) r.
(** a byte is read modulo 256 *)
Definition octets (l : list N) : list N := map (fun b => N.modulo b 256) l.
(** bytewise exclusive or *)
Fixpoint xored (a b : list N) : list N :=
  match a, b with x :: a, y :: b => N.lxor x y :: xored a b | _, _ => [] end.
