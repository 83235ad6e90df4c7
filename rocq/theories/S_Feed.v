(** What one party's program may end with, over every sequence of messages a peer could send, and what it
    received on the way.  Independent of the model. *)
From Coq Require Import List NArith.
From Verif Require Import S_Sched.
Import ListNotations.

(** the program receives the pieces ins, one per read, and ends with r *)
Inductive fed {A} : proc A -> list (list N) -> A -> Prop :=
| FRet a : fed (Ret a) [] a
| FSend c l p ins r : fed p ins r -> fed (Send c l p) ins r
| FFlush c p ins r : fed p ins r -> fed (Flush c p) ins r
| FRecv c n k bs ins r : length bs = n -> fed (k bs) ins r -> fed (Recv c n k) (bs :: ins) r.

(** four bytes that, lowest first, announce more than a thousand *)
Definition oversized (h : list N) : Prop :=
  exists a b c d, h = [a; b; c; d] /\ (1000 < a + 256 * b + 65536 * c + 16777216 * d)%N.
