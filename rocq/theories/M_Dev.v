(** A party that does not keep to the protocol in the records: BOB runs its program on a changed share
    of the key stream.  /repo/protocol/aead.h:224-243 (encrypt) and 369-386 (decrypt) use the share as it
    is; nothing binds BOB to the low bits of its labels. *)
From Coq Require Import List NArith Bool Arith.
From Verif Require Import L_Bits L_Res S_Sched.
From Verif Require S_Netlist.
From Verif Require Import M_EmpInteger M_Utils M_Ole2k M_Shares M_Aead M_Exch M_View M_LabRec.
Import ListNotations.
Local Open Scope N_scope.

(** what BOB has for a call, with the share of Z changed by the bytes [d]: in place of
    integer_to_chars of its labels, /repo/protocol/aead.h:226, 371 *)
Definition shift_own (d : list N) (w : own) : own :=
  {| w_z0 := w_z0 w; w_z := bxor (w_z w) (str_to_int d); w_open := w_open w |}.
(** the same for each call, /repo/protocol/aead.h:226, 371 *)
Definition shift_owns (ds : list (list N)) (ws : list own) : list own := map2 shift_own ds ws.
(** BOB's side of a session (M_LabRec.l_session) with the changes [ds]:
    /repo/protocol/aead.h:47-85, 169-306, 309-492 *)
Definition dev_bob (gfr : N -> N -> N) (hash : list N -> list N) (ds : list (list N)) (labels : list N) (opened : list (list bool))
    (sh : list (list S_Netlist.wire)) (rc : N) (roc : ole_rand) (rs : N) (ros : ole_rand) (l : list lcall) : proc (res (list pout)) :=
  match sh with
  | hc :: hs :: ws =>
      rbind (l_new gfr false (low_bits labels hc) rc roc) (fun c =>
      rbind (l_new gfr false (low_bits labels hs) rs ros) (fun s =>
      l_calls gfr hash false c s (combine l (shift_owns ds (owns labels l ws (skipn (length opened - public_calls l) opened))))))
  | _ => Ret UB
  end.
