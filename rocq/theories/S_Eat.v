(** What one party's program does when it is given bytes that some peer sent: no assumption on the peer.
    Independent of the model. *)
From Coq Require Import List NArith Arith.
From Verif Require Import S_Sched.
Import ListNotations.

(** the program run on the bytes [s] coming in over both channels together: its result and the bytes it
    left; None if it waits for more than there is *)
Fixpoint eat {A} (p : proc A) (s : list N) : option (A * list N) :=
  match p with
  | Ret a => Some (a, s)
  | Send _ _ p => eat p s
  | Flush _ p => eat p s
  | Recv _ n k => if length s <? n then None else eat (k (firstn n s)) (skipn n s)
  end.
