(** Two parties connected by two duplex byte channels, run under an arbitrary scheduler.
    Written from the documented behaviour of emp-tool's NetIO (a stdio stream over a TCP
    socket; the library is not in /repo):
    - [send] appends to the stream's output buffer; the buffered bytes may reach the socket
      at any later moment, in pieces, but nothing forces them to until a flush;
    - [flush] hands the buffered bytes of that channel to the socket;
    - [recv n] first flushes the same channel if something was sent on it, then waits until
      n bytes have arrived and takes them.
    The socket keeps the order and holds any number of bytes. *)
From Coq Require Import List NArith Bool Arith.
Import ListNotations.

(** the two channels a protocol object is given: IO* io, IO* io_opt
    (/repo/protocol/e2f.h:10-11, /repo/protocol/aead.h:16, 169) *)
Inductive chan : Type := IO | IO_OPT.
Definition chan_eqb (c d : chan) : bool := match c, d with IO, IO | IO_OPT, IO_OPT => true | _, _ => false end.

(** the communication behaviour of one party *)
Inductive proc (A : Type) : Type :=
| Ret (a : A)
| Send (c : chan) (bs : list N) (p : proc A)
| Flush (c : chan) (p : proc A)
| Recv (c : chan) (n : nat) (k : list N -> proc A).
Arguments Ret {A} a.
Arguments Send {A} c bs p.
Arguments Flush {A} c p.
Arguments Recv {A} c n k.

Fixpoint pbind {A B} (p : proc A) (f : A -> proc B) : proc B :=
  match p with
  | Ret a => f a
  | Send c bs p => Send c bs (pbind p f)
  | Flush c p => Flush c (pbind p f)
  | Recv c n k => Recv c n (fun bs => pbind (k bs) f)
  end.

(** one byte string per channel *)
Record bufs : Type := mkBufs { on_io : list N; on_opt : list N }.
Definition nobufs : bufs := mkBufs [] [].
Definition get (b : bufs) (c : chan) : list N := match c with IO => on_io b | IO_OPT => on_opt b end.
Definition put (b : bufs) (c : chan) (x : list N) : bufs :=
  match c with IO => mkBufs x (on_opt b) | IO_OPT => mkBufs (on_io b) x end.

(** a party's program, its output buffers and what is in flight from it to the peer *)
Record side (A : Type) : Type := mkSide { prog : proc A; obuf : bufs; wire : bufs }.
Arguments mkSide {A} prog obuf wire.
Arguments prog {A} s.
Arguments obuf {A} s.
Arguments wire {A} s.

Definition flushed {A} (p : proc A) (s : side A) (c : chan) : side A :=
  mkSide p (put (obuf s) c []) (put (wire s) c (get (wire s) c ++ get (obuf s) c)).

(** a step of one party's program; [inc] is what is in flight towards it *)
Inductive pstep {A} : side A -> bufs -> side A -> bufs -> Prop :=
| StepSend c bs p o w inc :
    pstep (mkSide (Send c bs p) o w) inc (mkSide p (put o c (get o c ++ bs)) w) inc
| StepFlush c p o w inc :
    pstep (mkSide (Flush c p) o w) inc (flushed p (mkSide (Flush c p) o w) c) inc
| StepRecvFlush c n k o w inc : get o c <> [] ->
    pstep (mkSide (Recv c n k) o w) inc (flushed (Recv c n k) (mkSide (Recv c n k) o w) c) inc
| StepRecv c n k o w inc : get o c = [] -> n <= length (get inc c) ->
    pstep (mkSide (Recv c n k) o w) inc
          (mkSide (k (firstn n (get inc c))) o w) (put inc c (skipn n (get inc c))).

(** the library or the operating system transmits some buffered bytes early *)
Inductive estep {A} : side A -> side A -> Prop :=
| StepEarly p o w c x y : get o c = x ++ y -> x <> [] ->
    estep (mkSide p o w) (mkSide p (put o c y) (put w c (get w c ++ x))).

Section System.
Context {A B : Type}.
Definition config : Type := (side A * side B)%type.

(** steps of the programs *)
Inductive prog_step : config -> config -> Prop :=
| StepA a b a' w' : pstep a (wire b) a' w' ->
    prog_step (a, b) (a', mkSide (prog b) (obuf b) w')
| StepB a b b' w' : pstep b (wire a) b' w' ->
    prog_step (a, b) (mkSide (prog a) (obuf a) w', b').
(** any step *)
Inductive step : config -> config -> Prop :=
| StepProg x y : prog_step x y -> step x y
| StepEnvA a a' b : estep a a' -> step (a, b) (a', b)
| StepEnvB a b b' : estep b b' -> step (a, b) (a, b').

Inductive reach (x : config) : config -> Prop :=
| reach_refl : reach x x
| reach_step y z : reach x y -> step y z -> reach x z.

Definition start (p : proc A) (q : proc B) : config := (mkSide p nobufs nobufs, mkSide q nobufs nobufs).
(** both returned, nothing left in any buffer *)
Definition finished (a : A) (b : B) : config := start (Ret a) (Ret b).
(** no program can move; bytes still buffered may or may not ever be transmitted *)
Definition stuck (x : config) : Prop := forall y, ~ prog_step x y.

(** whatever the scheduler does, both programs return, with these results, having read
    everything that was sent; no schedule runs for ever *)
Definition always_completes (p : proc A) (q : proc B) (a : A) (b : B) : Prop :=
  (forall x, reach (start p q) x -> stuck x -> x = finished a b) /\
  Acc (fun y x => step x y) (start p q).
(** some schedule leaves the programs waiting for ever *)
Definition can_deadlock (p : proc A) (q : proc B) : Prop :=
  exists x, reach (start p q) x /\ stuck x /\
            ((forall a, prog (fst x) <> Ret a) \/ (forall b, prog (snd x) <> Ret b)).
End System.
