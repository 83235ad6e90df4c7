(** The calls of a session as one party knows them. *)
From Coq Require Import List ZArith.
From Verif Require Import M_SymOn.

(** a call with the peer's share of the premaster secret left out: the arguments of
    compute_master_key and compute_extended_master_key are each party's own share, everything
    else is given to both (/repo/protocol/handshake.h:187-266; the rest of the calls are
    /repo/protocol/handshake.h:269-326 and /repo/protocol/aead.h:47-492) *)
Definition own_call (alice : bool) (c : on_call) : on_call :=
  match c with
  | NMaster pa pb rc rs => if alice then NMaster pa 0 rc rs else NMaster 0 pb rc rs
  | NExtMaster pa pb sh => if alice then NExtMaster pa 0 sh else NExtMaster 0 pb sh
  | _ => c
  end.
