(** Model of class PRFProver (/repo/protocol/prove_prf.h:18-146), the key derivation of
    the proxy mode: ALICE knows the whole pre-master secret.  The labels and lengths are
    those of handshake.h. *)
From Coq Require Import List NArith ZArith Bool Arith.
From Verif Require Import L_Bits L_Res M_EmpInteger M_Trace M_Utils M_Sha256 M_Hmac M_Bn M_Handshake.
Import ListNotations.
Local Open Scope res_scope.

(** members: /repo/protocol/prove_prf.h:20-30; reuse_in_hash_flag and reuse_out_hash_flag
    are true and zk_flag is false for ever *)
Record pp := mkPp { pp_q : Z; pp_hmac : hmac_st; pp_prf : prf_st }.
(** constructor: /repo/protocol/prove_prf.h:32-40 *)
Definition pp_new (q : Z) : pp := mkPp q hmac_init prf_init0.

(** a call of prf.opt_compute, e.g. /repo/protocol/prove_prf.h:71-73; [feed] is what ALICE
    inputs for the inner digests (identity for a party running this code) *)
Definition pp_call (feed : list N -> list N) (s : pp) (r : Integer) (n : nat) (label seed : list N)
  : res (pp * Integer) :=
  let* (x, r) := opt_phash_core feed (pp_prf s) (pp_hmac s) r (n * 8) (label ++ seed) true true false in
  Ok (mkPp (pp_q s) (snd x) (fst x), r).

(** prf.init: /repo/protocol/prove_prf.h:70, 95, 120 *)
Definition pp_init (s : pp) (key : Integer) : res pp :=
  let* h := prf_init (pp_hmac s) key in Ok (mkPp (pp_q s) h (pp_prf s)).

(** prove_master_key: /repo/protocol/prove_prf.h:45-75 *)
Definition pp_master_key (feed : list N -> list N) (s : pp) (ms : Integer) (pms : Z) (rc rs : list N)
  : res (pp * Integer) :=
  let* pmsbits := pms_int (pp_q s) pms in
  let seed := rc ++ rs in
  let* s := pp_init s pmsbits in
  pp_call feed s ms master_key_length master_key_label seed.

(** prove_extended_master_key: /repo/protocol/prove_prf.h:78-101 *)
Definition pp_extended_master_key (feed : list N -> list N) (s : pp) (ms : Integer) (pms : Z)
           (session_hash : list N) : res (pp * Integer) :=
  let* pmsbits := pms_int (pp_q s) pms in
  let* s := pp_init s pmsbits in
  pp_call feed s ms extended_master_key_length extended_master_key_label session_hash.

(** prove_expansion_keys: /repo/protocol/prove_prf.h:103-131 *)
Definition pp_expansion_keys (feed : list N -> list N) (s : pp) (ms : Integer) (rc rs : list N)
  : res (pp * (Integer * Integer * Integer * Integer)) :=
  let seed := rs ++ rc in
  let* s := pp_init s ms in
  let* (s, key) := pp_call feed s [] expansion_key_length key_expansion_label seed in
  let* ks := split_keys key in
  Ok (s, ks).

(** prove_client_finished_msg, prove_server_finished_msg:
    /repo/protocol/prove_prf.h:133-145; ms is not used (the key pads of the last init
    are), [ufin] is the caller's result object *)
Definition pp_client_finished (feed : list N -> list N) (s : pp) (ufin : Integer) (tau : list N) :=
  pp_call feed s ufin finished_msg_length client_finished_label tau.
(** same code: /repo/protocol/prove_prf.h:133-145 *)
Definition pp_server_finished (feed : list N -> list N) (s : pp) (ufin : Integer) (tau : list N) :=
  pp_call feed s ufin finished_msg_length server_finished_label tau.
