(** What a party sees of a run: the bytes it takes from each channel. *)
From Coq Require Import List NArith.
From Verif Require Import S_Sched.
Import ListNotations.

(** the same program, which also returns, after [l], everything it received on each channel *)
Fixpoint logged {A} (p : proc A) (l : bufs) : proc (A * bufs) :=
  match p with
  | Ret a => Ret (a, l)
  | Send c bs p => Send c bs (logged p l)
  | Flush c p => Flush c (logged p l)
  | Recv c n k => Recv c n (fun bs => logged (k bs) (put l c (get l c ++ bs)))
  end.
(** under every schedule both programs return, with these results, having received these bytes *)
Definition runs_with_views {A B} (p : proc A) (q : proc B) (a : A) (b : B) (seen_a seen_b : bufs) : Prop :=
  always_completes (logged p nobufs) (logged q nobufs) (a, seen_a) (b, seen_b).
(** the 16 bytes before the last [k] of what was received *)
Definition before_last (k : nat) (l : list N) : list N := firstn 16 (skipn (length l - (16 + k)) l).
