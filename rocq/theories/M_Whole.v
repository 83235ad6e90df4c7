(** The whole run of /repo/test/prot_on_off.cpp, one program per party, on its own data alone: circuits
    garbled in advance, the conversion's triples, then the point exchange, the conversion, and the
    circuits and records of a session. *)
From Coq Require Import List NArith ZArith Bool Arith.
From Verif Require Import L_Bits L_Res S_Circuit S_Sched L_Group S_Ec.
From Verif Require Import M_Bristol M_Bn M_Ec M_E2f M_Sym M_SymOn M_Block M_Aead M_Exch M_ExchDh M_View M_LabRec M_Garble M_GcProc M_Inter M_Live.
Import ListNotations.

Section WHOLE.
Context {C : Curve}.
Notation point := (pt (cgrp C)).
Variable ccrh : N -> N.
Variable q : Z.
Variable bit_length : nat.
Variable ks enc : bristol.
Variable rounds : bool.
Variable gfr : N -> N -> N.
Variable hash : list N -> list N.
Variable sigma aes : N -> N.
Variable Hash : list N -> N.
Variable fixk : nat -> N.
Variable lab : nat -> N.
Variable delta : N.
(** the party's calls, given its share of the premaster secret (/repo/test/prot_on_off.cpp:98-137) *)
Variable cs : Z -> list icall.

(** the client: full_protocol_offline, compute_pms_offline, compute_client_VB, compute_pms_online and the
    calls of full_protocol (/repo/test/prot_on_off.cpp:216-225, 92-137); the setup of the connection and
    the OT extension's own traffic are not modelled, and the zero-knowledge part is left out *)
Definition w_alice (off : list instr) (t : Z) (Ts : point) (r : e2f_rnd) (Delta : N) (raw : list (list N)) :
    proc (res (ngen * nat * list pout)) :=
  rbind (p_fgen sigma aes fixk lab delta f_init_g off) (fun g =>
  rbind (p_e2f_offline ccrh q bit_length true r Delta raw) (fun s =>
  rbind (p_client_VB t Ts) (fun '(Tc, Vb, _) =>
  rbind (p_pms_online q true s Vb Tc) (fun '(_, pms) =>
  l_start ks enc q rounds (cs pms) ngen (p_ngen_step Hash fixk lab delta (fg_out g)) ngs_saw gfr hash ngs_w true ng0)))).
(** the attestor: the same with compute_primus_VA (/repo/test/prot_on_off.cpp:216-225, 92-137) *)
Definition w_bob (off : list instr) (t : Z) (Ts : point) (r : e2f_rnd) (Delta : N) (raw : list (list N)) :
    proc (res (neva * nat * list pout)) :=
  rbind (p_feva f_init_e off) (fun e =>
  rbind (p_e2f_offline ccrh q bit_length false r Delta raw) (fun s =>
  rbind (p_primus_VA t Ts) (fun Va =>
  rbind (p_pms_online q false s Va Va) (fun '(_, pms) =>
  l_start ks enc q rounds (cs pms) neva (p_neva_step sigma aes Hash fixk lab delta (fe_GC e) (fe_pub e)) nes_saw gfr hash nes_w false ne0)))).
End WHOLE.
