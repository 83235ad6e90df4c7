(** Model of the traffic of the key agreement, one program per party:
    /repo/protocol/handshake.h:100-183 and /repo/protocol/post_record.h:52-72.
    As in M_Exch the traffic of the OT extension is not modelled. *)
From Coq Require Import List NArith ZArith Bool Arith.
From Verif Require Import L_Bits L_Res S_Sched L_Group S_Ec M_Bn M_Ec M_E2f M_Exch.
Import ListNotations.
Local Open Scope Z_scope.

Section DH.
Context {C : Curve}.
Notation point := (pt (cgrp C)).
Variable ccrh : N -> N.
Variable q : Z.
Variable bit_length : nat.

(** compute_primus_VA: /repo/protocol/handshake.h:106-123; there is no flush *)
Definition p_primus_VA (t : Z) (Ts : point) : proc (res point) :=
  let '(bytes, Va, _) := compute_primus_VA t Ts in Send IO bytes (Ret (Ok Va)).
(** compute_client_VB: /repo/protocol/handshake.h:127-145; Tc, Vb, Ta_client *)
Definition p_client_VB (t : Z) (Ts : point) : proc (res (point * point * point)) :=
  Recv IO 65 (fun buf =>
    Ret (let* (Tc, Vb, Ta, _) := compute_client_VB t Ts buf in Ok (Tc, Vb, Ta))%res).
(** compute_pms_online: /repo/protocol/handshake.h:173-184; [keep] is a point the caller still
    has (the client's Tc, the attestor's Va) *)
Definition p_pms_online (alice : bool) (s : e2f) (V keep : point) : proc (res (point * Z)) :=
  rbind (p_e2f_online q alice s (fst (pms_input V)) (snd (pms_input V))) (fun pms => Ret (Ok (keep, pms))).

(** the point exchange, then both phases of the conversion, as called by
    /repo/test/protocol.cpp:66-77 and /repo/test/handshake.cpp:42-52; the attestor's part *)
Definition p_pms_bob (t : Z) (Ts : point) (r : e2f_rnd) (Delta : N) (raw : list (list N)) : proc (res (point * Z)) :=
  rbind (p_primus_VA t Ts) (fun Va =>
  rbind (p_e2f_offline ccrh q bit_length false r Delta raw) (fun s => p_pms_online false s Va Va)).
(** the client's part (/repo/test/protocol.cpp:66-77) *)
Definition p_pms_alice (t : Z) (Ts : point) (r : e2f_rnd) (Delta : N) (raw : list (list N)) : proc (res (point * Z)) :=
  rbind (p_client_VB t Ts) (fun '(Tc, Vb, _) =>
  rbind (p_e2f_offline ccrh q bit_length true r Delta raw) (fun s => p_pms_online true s Vb Tc)).
(** the order of /repo/test/prot_on_off.cpp:217, 92-98: offline phase first; attestor *)
Definition p_pms_off_bob (t : Z) (Ts : point) (r : e2f_rnd) (Delta : N) (raw : list (list N)) : proc (res (point * Z)) :=
  rbind (p_e2f_offline ccrh q bit_length false r Delta raw) (fun s =>
  rbind (p_primus_VA t Ts) (fun Va => p_pms_online false s Va Va)).
(** client (/repo/test/prot_on_off.cpp:217, 92-98) *)
Definition p_pms_off_alice (t : Z) (Ts : point) (r : e2f_rnd) (Delta : N) (raw : list (list N)) : proc (res (point * Z)) :=
  rbind (p_e2f_offline ccrh q bit_length true r Delta raw) (fun s =>
  rbind (p_client_VB t Ts) (fun '(Tc, Vb, _) => p_pms_online true s Vb Tc)).

(** reveal_pms, attestor: /repo/protocol/post_record.h:53-54; there is no flush *)
Definition p_reveal_bob (ta : Z) : proc (res unit) := p_send_bn IO ta.
(** reveal_pms, client: /repo/protocol/post_record.h:55-71 *)
Definition p_reveal_alice (Ta_client : point) (tb : Z) (Ts : point) : proc (res Z) :=
  rbind (p_recv_bn IO) (fun t =>
    let T := EC_POINT_mul (Some t) None in
    if negb (EC_POINT_cmp T Ta_client =? 0) then Ret Err
    else
      let t := BN_mod_add t tb (order (cgrp C)) in
      Ret (Ok (fst (affine (EC_POINT_mul None (Some (Ts, t))))))).
End DH.
